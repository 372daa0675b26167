(** Handler-level execution rules in specification terms, and the straight-line / jump frames. *)
From Verif Require Import Base Cpu Alu Ops Machine Spec PBase PMem PRun PFrame PAlu.

(** ** flat / wf_regs are kept by every architectural update *)
Lemma flat_gprs E base v a : flat E base a -> flat E base (a_gprs v a).
Proof. apply flat_ext; reflexivity. Qed.
Lemma flat_ss E base v a : flat E base a -> flat E base (a_ss v a).
Proof. apply flat_ext; reflexivity. Qed.
Lemma flat_ds E base v a : flat E base a -> flat E base (a_ds v a).
Proof. apply flat_ext; reflexivity. Qed.
Lemma flat_es E base v a : flat E base a -> flat E base (a_es v a).
Proof. apply flat_ext; reflexivity. Qed.
Lemma flat_fs E base v a : flat E base a -> flat E base (a_fs v a).
Proof. apply flat_ext; reflexivity. Qed.
Lemma flat_gs E base v a : flat E base a -> flat E base (a_gs v a).
Proof. apply flat_ext; reflexivity. Qed.
Lemma flat_cs E base v a : flat E base a -> flat E base (a_cs v a).
Proof. apply flat_ext; reflexivity. Qed.
Lemma flat_ip E base v a : flat E base a -> flat E base (a_ip v a).
Proof. apply flat_ext; reflexivity. Qed.
Lemma flat_flags E base v a : flat E base a -> flat E base (a_flags v a).
Proof. apply flat_ext; reflexivity. Qed.
Lemma flat_iolog E base v a : flat E base a -> flat E base (a_iolog v a).
Proof. apply flat_ext; reflexivity. Qed.
Lemma flat_with_gpr E base n v a : flat E base a -> flat E base (with_gpr n v a).
Proof. apply flat_gprs. Qed.
Lemma flat_with_reg E base w n v a : flat E base a -> flat E base (with_reg w n v a).
Proof.
  intros F. unfold with_reg. destruct (w =? 8); [destruct (n <? 4)|]; apply flat_with_gpr, F.
Qed.
Lemma flat_with_sreg E base n v a : flat E base a -> flat E base (with_sreg n v a).
Proof.
  intros F. unfold with_sreg. destruct n as [|[[[]|[]|]|[[]|[]|]|]|];
  auto using flat_es, flat_cs, flat_ss, flat_ds, flat_fs, flat_gs.
Qed.
Lemma flat_with_mem E base w x v a : flat E base a -> width w -> 0 <= x -> x + w / 8 <= 1114112 ->
  flat E base (with_mem w x v a).
Proof.
  intros F Hw H0 H1. eapply same_flat; [apply smem_same with (E := E) (base := base); auto|].
  apply smem_flat, F.
Qed.
#[export] Hint Resolve flat_gprs flat_ss flat_ds flat_es flat_fs flat_gs flat_cs flat_ip flat_flags
  flat_iolog flat_with_reg flat_with_sreg smem_flat wr_m_flat : flat.

(** Memory reads depend on the map and the host memory only. *)
Lemma byte_ext a b x : mtab a = mtab b -> hmem a = hmem b -> byte a x = byte b x.
Proof. intros H1 H2. unfold byte, host. rewrite H1, H2. reflexivity. Qed.
Lemma peek_ext n a b x : mtab a = mtab b -> hmem a = hmem b -> peek n a x = peek n b x.
Proof.
  intros H1 H2. revert x. induction n as [|n IH]; intros x; cbn [peek]; [reflexivity|].
  rewrite IH, (byte_ext a b) by auto. reflexivity.
Qed.
Lemma mem_ext w a b x : mtab a = mtab b -> hmem a = hmem b -> mem w a x = mem w b x.
Proof. apply peek_ext. Qed.
Lemma rd_rm_ext w r a b : gprs a = gprs b -> mtab a = mtab b -> hmem a = hmem b ->
  rd_rm w r a = rd_rm w r b.
Proof.
  intros H0 H1 H2. destruct r; cbn [rd_rm]; [|apply mem_ext; auto].
  unfold reg, gpr. rewrite H0. reflexivity.
Qed.
Lemma rd_rm_flags w r f a : rd_rm w r (a_flags f a) = rd_rm w r a.
Proof. apply rd_rm_ext; reflexivity. Qed.

(** Register-file projections of the updates. *)
Lemma with_reg_fields w n v a :
  r_ss (with_reg w n v a) = r_ss a /\ r_ds (with_reg w n v a) = r_ds a /\
  r_es (with_reg w n v a) = r_es a /\ r_fs (with_reg w n v a) = r_fs a /\
  r_gs (with_reg w n v a) = r_gs a /\ r_cs (with_reg w n v a) = r_cs a /\
  r_ip (with_reg w n v a) = r_ip a /\ r_flags (with_reg w n v a) = r_flags a /\
  cpu (with_reg w n v a) = cpu a /\ mtab (with_reg w n v a) = mtab a /\
  hle (with_reg w n v a) = hle a /\ hmem (with_reg w n v a) = hmem a /\
  iolog (with_reg w n v a) = iolog a.
Proof.
  unfold with_reg, with_gpr. destruct (w =? 8); [destruct (n <? 4)|]; cbn; repeat split.
Qed.
Lemma wreg_ss w n v a : r_ss (with_reg w n v a) = r_ss a. Proof. apply with_reg_fields. Qed.
Lemma wreg_ds w n v a : r_ds (with_reg w n v a) = r_ds a. Proof. apply with_reg_fields. Qed.
Lemma wreg_es w n v a : r_es (with_reg w n v a) = r_es a. Proof. apply with_reg_fields. Qed.
Lemma wreg_fs w n v a : r_fs (with_reg w n v a) = r_fs a. Proof. apply with_reg_fields. Qed.
Lemma wreg_gs w n v a : r_gs (with_reg w n v a) = r_gs a. Proof. apply with_reg_fields. Qed.
Lemma wreg_cs w n v a : r_cs (with_reg w n v a) = r_cs a. Proof. apply with_reg_fields. Qed.
Lemma wreg_ip w n v a : r_ip (with_reg w n v a) = r_ip a. Proof. apply with_reg_fields. Qed.
Lemma wreg_flags w n v a : r_flags (with_reg w n v a) = r_flags a. Proof. apply with_reg_fields. Qed.
Lemma wreg_cpu w n v a : cpu (with_reg w n v a) = cpu a. Proof. apply with_reg_fields. Qed.
Lemma wreg_mtab w n v a : mtab (with_reg w n v a) = mtab a. Proof. apply with_reg_fields. Qed.
Lemma wreg_hle w n v a : hle (with_reg w n v a) = hle a. Proof. apply with_reg_fields. Qed.
Lemma wreg_hmem w n v a : hmem (with_reg w n v a) = hmem a. Proof. apply with_reg_fields. Qed.
Lemma wreg_iolog w n v a : iolog (with_reg w n v a) = iolog a. Proof. apply with_reg_fields. Qed.

(** Reading a register after writing it or another one. *)
Lemma wpos w : width w -> 0 <= w.
Proof. intros [-> | [-> | ->]]; lia. Qed.
Lemma gprs_with_reg w n v a : width w -> 0 <= n < 8 -> inrange w v ->
  gprs (with_reg w n v a) = setf (rpos w n) w v (gprs a).
Proof. intros. rewrite with_reg_setf by auto. reflexivity. Qed.
Lemma reg_same w n v a : width w -> 0 <= n < 8 -> inrange w v -> reg w n (with_reg w n v a) = v.
Proof.
  intros Hw Hn Hv. rewrite reg_getf, gprs_with_reg by auto.
  pose proof (rpos_bound w n Hw Hn). pose proof (wpos w Hw). rewrite getf_setf_same by lia.
  apply wrap_small, Hv.
Qed.
(** Registers that do not overlap. *)
Lemma reg_other w n v a w' n' : width w -> width w' -> 0 <= n < 8 -> 0 <= n' < 8 -> inrange w v ->
  rpos w' n' + w' <= rpos w n \/ rpos w n + w <= rpos w' n' ->
  reg w' n' (with_reg w n v a) = reg w' n' a.
Proof.
  intros Hw Hw' Hn Hn' Hv Hd. rewrite !reg_getf, gprs_with_reg by auto.
  pose proof (rpos_bound w n Hw Hn). pose proof (rpos_bound w' n' Hw' Hn').
  pose proof (wpos w Hw). pose proof (wpos w' Hw'). apply getf_setf_disjoint; lia.
Qed.
Lemma reg_range w n a : width w -> 0 <= n < 8 -> inrange w (reg w n a).
Proof. intros. rewrite reg_getf by auto. apply getf_range, wpos; auto. Qed.

Lemma wf_with_reg w n v a : width w -> 0 <= n < 8 -> inrange w v -> wf_regs a ->
  wf_regs (with_reg w n v a).
Proof.
  intros Hw Hn Hv W. rewrite with_reg_setf by auto.
  exact (wr_m_wf 0 a w (RReg n) v Hw Hn W).
Qed.
Lemma wf_flags_upd f a : inrange 16 f -> wf_regs a -> wf_regs (a_flags f a).
Proof. intros H []; constructor; auto. Qed.
Lemma wf_ip_upd f a : inrange 16 f -> wf_regs a -> wf_regs (a_ip f a).
Proof. intros H []; constructor; auto. Qed.
Lemma wf_cs_upd f a : inrange 16 f -> wf_regs a -> wf_regs (a_cs f a).
Proof. intros H []; constructor; auto. Qed.
Lemma wf_smem base w x v a : wf_regs a -> wf_regs (smem base w x v a).
Proof. intros []; constructor; auto. Qed.
Lemma wf_hmem v a : wf_regs a -> wf_regs (a_hmem v a).
Proof. intros []; constructor; auto. Qed.
Lemma wf_iolog v a : wf_regs a -> wf_regs (a_iolog v a).
Proof. intros []; constructor; auto. Qed.
Lemma wf_with_sreg n v a : inrange 16 v -> wf_regs a -> wf_regs (with_sreg n v a).
Proof.
  intros H []; unfold with_sreg; destruct n as [|[[[]|[]|]|[[]|[]|]|]|]; constructor; auto.
Qed.

Lemma low_low w x : 0 <= w -> low w (low w x) = low w x.
Proof. intros. exact (wrap_wrap w x H). Qed.
Lemma low_id w x : inrange w x -> low w x = x.
Proof. exact (wrap_small w x). Qed.

(** ** Register steps in specification terms *)
Section Steps.
Context {Y : Type}.
Lemma st_getW r (k : Z -> M Y) a d g n l : 0 <= r < 8 ->
  bind (getW r) k (mkSt a d g n l) = k (reg 16 r a) (mkSt a d g n l).
Proof. intros. erewrite bind_ok by (apply getW_ok; auto). reflexivity. Qed.
Lemma st_getr p w m (k : Z -> M Y) a d g n l : width w -> 0 <= m < 8 -> p = rpos w m ->
  bind (get_gpr p w) k (mkSt a d g n l) = k (reg w m a) (mkSt a d g n l).
Proof. intros. subst p. rewrite reg_getf by auto. reflexivity. Qed.
Lemma st_setr p w m v (k : unit -> M Y) a d g n l : width w -> 0 <= m < 8 -> p = rpos w m ->
  bind (set_gpr p w v) k (mkSt a d g n l) = k tt (mkSt (with_reg w m (low w v) a) d g n l).
Proof.
  intros Hw Hm ->. rewrite with_reg_setf by (auto using low_range).
  rewrite st_set_gpr. unfold low. change (v mod 2 ^ w) with (wrap w v).
  rewrite setf_wrap by (apply wpos; auto). reflexivity.
Qed.
Lemma st_setW r v (k : unit -> M Y) a d g n l : 0 <= r < 8 ->
  bind (setW r v) k (mkSt a d g n l) = k tt (mkSt (with_reg 16 r (low 16 v) a) d g n l).
Proof. intros. apply st_setr; auto. unfold width; auto. Qed.
Lemma st_getL r (k : Z -> M Y) a d g n l : 0 <= r < 4 ->
  bind (getL r) k (mkSt a d g n l) = k (reg 8 r a) (mkSt a d g n l).
Proof.
  intros. apply st_getr; [unfold width; auto|lia|]. unfold rpos. cbn.
  replace (r <? 4) with true by lia. reflexivity.
Qed.
Lemma st_setL r v (k : unit -> M Y) a d g n l : 0 <= r < 4 ->
  bind (setL r v) k (mkSt a d g n l) = k tt (mkSt (with_reg 8 r (low 8 v) a) d g n l).
Proof.
  intros. apply st_setr; [unfold width; auto|lia|]. unfold rpos. cbn.
  replace (r <? 4) with true by lia. reflexivity.
Qed.
Lemma st_getH r (k : Z -> M Y) a d g n l : 0 <= r < 4 ->
  bind (getH r) k (mkSt a d g n l) = k (reg 8 (r + 4) a) (mkSt a d g n l).
Proof.
  intros. apply st_getr; [unfold width; auto|lia|]. unfold rpos. cbn.
  replace (r + 4 <? 4) with false by lia. lia.
Qed.
Lemma st_setH r v (k : unit -> M Y) a d g n l : 0 <= r < 4 ->
  bind (setH r v) k (mkSt a d g n l) = k tt (mkSt (with_reg 8 (r + 4) (low 8 v) a) d g n l).
Proof.
  intros. apply st_setr; [unfold width; auto|lia|]. unfold rpos. cbn.
  replace (r + 4 <? 4) with false by lia. lia.
Qed.
End Steps.

(** Put a tail action into bind form. *)
Lemma to_bind {X} (m : M X) s : m s = bind m ret s.
Proof. symmetry. apply tl_ret. Qed.

Section WithEnv.
Context (E : env) (base : Z).

(** ** Frames *)
Lemma run_straight s pre p bs o k m a' a2 :
  fetched E base s pre p bs -> dispatch bs = Some (o, k, m) ->
  exec1 E o k (mkSt (ar s) (dec_of p (blen pre + m)) (dbg s) (icount s + 1) (lastnull s)) =
    Ok tt (mkSt a' (dec_of p (blen pre + blen bs)) (dbg s) (icount s + 1) (lastnull s)) ->
  flat E base a' -> r_ip a' = r_ip (ar s) -> same a' a2 ->
  executes E s (pre ++ bs) a2.
Proof.
  intros Hf Hd Hx Fl Hip Hs. unfold executes.
  eapply run_ok; eauto; cbn [d_ipoff d_noip dec_of].
  - rewrite blen_app. reflexivity.
  - unfold next. rewrite Hip, blen_app, Z.add_assoc. change low with wrap. rewrite <- Z.add_assoc.
    apply same_a_ip, Hs.
Qed.
(** The same when the handler also cleared the REP prefix. *)
Lemma run_straight_rep s pre p bs o k m a' a2 :
  fetched E base s pre p bs -> dispatch bs = Some (o, k, m) ->
  exec1 E o k (mkSt (ar s) (dec_of p (blen pre + m)) (dbg s) (icount s + 1) (lastnull s)) =
    Ok tt (mkSt a' (dd_rep 0 (dec_of p (blen pre + blen bs))) (dbg s) (icount s + 1) (lastnull s)) ->
  flat E base a' -> r_ip a' = r_ip (ar s) -> same a' a2 ->
  executes E s (pre ++ bs) a2.
Proof.
  intros Hf Hd Hx Fl Hip Hs. unfold executes.
  eapply run_ok; eauto; cbn [d_ipoff d_noip dec_of dd_rep].
  - rewrite blen_app. reflexivity.
  - unfold next. rewrite Hip, blen_app, Z.add_assoc. change low with wrap. rewrite <- Z.add_assoc.
    apply same_a_ip, Hs.
Qed.
(** The handler changed IP itself relative to the next instruction. *)
Lemma run_rel s pre p bs o k m a' a2 :
  fetched E base s pre p bs -> dispatch bs = Some (o, k, m) ->
  exec1 E o k (mkSt (ar s) (dec_of p (blen pre + m)) (dbg s) (icount s + 1) (lastnull s)) =
    Ok tt (mkSt a' (dec_of p (blen pre + blen bs)) (dbg s) (icount s + 1) (lastnull s)) ->
  flat E base a' -> same (a_ip (low 16 (r_ip a' + (blen pre + blen bs))) a') a2 ->
  executes_to E s (pre ++ bs) a2.
Proof.
  intros Hf Hd Hx Fl Hs.
  eapply run_ok; eauto; cbn [d_ipoff d_noip dec_of].
  rewrite blen_app. reflexivity.
Qed.
(** The handler set IP absolutely (bDontChangeIP). *)
Lemma run_abs s pre p bs o k m a' a2 :
  fetched E base s pre p bs -> dispatch bs = Some (o, k, m) ->
  exec1 E o k (mkSt (ar s) (dec_of p (blen pre + m)) (dbg s) (icount s + 1) (lastnull s)) =
    Ok tt (mkSt a' (dd_noip true (dec_of p (blen pre + blen bs))) (dbg s) (icount s + 1) (lastnull s)) ->
  flat E base a' -> same a' a2 ->
  executes_to E s (pre ++ bs) a2.
Proof.
  intros Hf Hd Hx Fl Hs.
  eapply run_ok; eauto; cbn [d_ipoff d_noip dec_of dd_noip].
  rewrite blen_app. reflexivity.
Qed.
(** The handler failed without touching the architectural state. *)
Lemma run_stop s pre p bs o k m c d' :
  fetched E base s pre p bs -> dispatch bs = Some (o, k, m) ->
  exec1 E o k (mkSt (ar s) (dec_of p (blen pre + m)) (dbg s) (icount s + 1) (lastnull s)) =
    Err c (mkSt (ar s) d' (dbg s) (icount s + 1) (lastnull s)) ->
  c <> E_CONTINUE -> c <> E_DIVERR -> stops E s c.
Proof.
  intros Hf Hd Hx H1 H2. pose proof (run_err E base s pre p bs o k m c _ Hf Hd Hx H1) as H.
  replace (c =? E_DIVERR) with false in H by lia.
  eexists. split; [exact H|]. cbn. repeat split; auto using same_refl.
Qed.

(** ** Operand steps under bind *)
Section Steps.
Context {Y : Type}.
Lemma st_load w r (k : Z -> M Y) a d g n l : flat E base a -> width w -> rm_ok r ->
  bind (load w (ptr_of base w r)) k (mkSt a d g n l) = k (rd_rm w r a) (mkSt a d g n l).
Proof. intros. erewrite bind_ok by (apply load_rm with (E := E); auto). reflexivity. Qed.
Lemma st_store w r v (k : unit -> M Y) a d g n l : flat E base a -> width w -> rm_ok r ->
  bind (store w (ptr_of base w r) v) k (mkSt a d g n l) =
  k tt (mkSt (wr_m base w r v a) d g n l).
Proof. intros. erewrite bind_ok by (apply store_rm with (E := E); auto). reflexivity. Qed.
Lemma st_rd w sg o (k : Z -> M Y) a d g n l : flat E base a -> width w -> inrange 16 sg ->
  bind (rd E w sg o) k (mkSt a d g n l) = k (mem w a (lin sg (low 16 o))) (mkSt a d g n l).
Proof. intros. erewrite bind_ok by (apply rd_flat with (base := base); auto). reflexivity. Qed.
Lemma st_wr w sg o v (k : unit -> M Y) a d g n l : flat E base a -> width w -> inrange 16 sg ->
  bind (wr E w sg o v) k (mkSt a d g n l) =
  k tt (mkSt (smem base w (lin sg (low 16 o)) v a) d g n l).
Proof. intros. erewrite bind_ok by (apply wr_flat with (base := base); auto). reflexivity. Qed.
Lemma st_fetch8 (k : Z -> M Y) a p off g n l b t : flat E base a -> wf_regs a ->
  code_from a off (b :: t) ->
  bind (fetch8 E) k (mkSt a (dec_of p off) g n l) = k b (mkSt a (dec_of p (off + 1)) g n l).
Proof. intros F W C. erewrite bind_ok by (eapply fetch8_code; eauto). reflexivity. Qed.
Lemma st_fetch8s (k : Z -> M Y) a p off g n l b t : flat E base a -> wf_regs a ->
  code_from a off (b :: t) ->
  bind (fetch8s E) k (mkSt a (dec_of p off) g n l) =
  k (signed 8 b) (mkSt a (dec_of p (off + 1)) g n l).
Proof.
  intros F W C. pose proof (code_byte_range E base a off b t F W C).
  rewrite signed_sgn by (unfold inrange; lia).
  unfold fetch8s. rewrite st_bind. erewrite st_fetch8 by eauto. rewrite st_ret. reflexivity.
Qed.
Lemma imm_blen w t i : width w -> imm w t = Some i -> blen t = w / 8.
Proof.
  intros Hw. destruct t as [|b0 [|b1 [|b2 [|b3 [|b4 t]]]]]; cbn; try discriminate;
  destruct Hw as [-> | [-> | ->]]; cbn; try discriminate; reflexivity.
Qed.
Lemma st_fetch w (k : Z -> M Y) a p off g n l t i : flat E base a -> wf_regs a -> width w ->
  code_from a off t -> imm w t = Some i ->
  bind (fetch E w) k (mkSt a (dec_of p off) g n l) =
  k i (mkSt a (dec_of p (off + blen t)) g n l).
Proof.
  intros F W Hw C Hi. pose proof (imm_blen _ _ _ Hw Hi) as Hl.
  destruct t as [|b0 [|b1 [|b2 [|b3 [|b4 t]]]]]; cbn in Hi; try discriminate;
  destruct Hw as [-> | [-> | ->]]; cbn in Hi; try discriminate; injection Hi as <-; rewrite Hl.
  - change (fetch E 8) with (fetch8 E). erewrite st_fetch8 by eauto. reflexivity.
  - erewrite bind_ok by (eapply fetch16_code; eauto). reflexivity.
  - erewrite bind_ok by (eapply fetch32_code; eauto). reflexivity.
Qed.
Lemma imm_range w a off t i : flat E base a -> wf_regs a -> width w ->
  code_from a off t -> imm w t = Some i -> inrange w i.
Proof.
  intros F W Hw C Hi. unfold inrange.
  destruct t as [|b0 [|b1 [|b2 [|b3 [|b4 t]]]]]; cbn in Hi; try discriminate;
  destruct Hw as [-> | [-> | ->]]; cbn in Hi; try discriminate; injection Hi as <-.
  - pose proof (code_byte_range E base a _ _ _ F W C). lia.
  - pose proof (code_byte_range E base a _ _ _ F W C). apply code_from_cons in C as [_ C].
    pose proof (code_byte_range E base a _ _ _ F W C). lia.
  - pose proof (code_byte_range E base a _ _ _ F W C). apply code_from_cons in C as [_ C].
    pose proof (code_byte_range E base a _ _ _ F W C). apply code_from_cons in C as [_ C].
    pose proof (code_byte_range E base a _ _ _ F W C). apply code_from_cons in C as [_ C].
    pose proof (code_byte_range E base a _ _ _ F W C). lia.
Qed.
Lemma st_parse8 (k : ptr * ptr -> M Y) a p off g n l bs rg r rest : flat E base a -> wf_regs a ->
  pfx_ok p -> code_from a off bs -> parse_rm p a bs = Some (rg, r, rest) -> ea_supported p a bs ->
  bind (parse_modrm E) k (mkSt a (dec_of p off) g n l) =
  k (ptr_of base 8 (RReg rg), ptr_of base 8 r)
    (mkSt a (dec_of p (off + (blen bs - blen rest))) g n l).
Proof. intros. erewrite bind_ok by (eapply parse8_ok; eauto). reflexivity. Qed.
Lemma st_parsex w (k : ptr * ptr -> M Y) a p off g n l bs rg r rest : flat E base a -> wf_regs a ->
  pfx_ok p -> code_from a off bs -> parse_rm p a bs = Some (rg, r, rest) -> ea_supported p a bs ->
  not_block_end 16 r -> w = 16 \/ w = 32 ->
  bind (parse_modrmx E) k (mkSt a (dec_of p off) g n l) =
  k (ptr_of base w (RReg rg), ptr_of base w r)
    (mkSt a (dec_of p (off + (blen bs - blen rest))) g n l).
Proof. intros. erewrite bind_ok by (eapply parsex_ok with (w := w); eauto). reflexivity. Qed.
Lemma st_getseg c (k : Z -> M Y) a d g n l : 0 <= c < 6 ->
  bind (getseg c) k (mkSt a d g n l) = k (sreg c a) (mkSt a d g n l).
Proof. intros. erewrite bind_ok by (apply getseg_ok; auto). reflexivity. Qed.
Lemma st_chkseg c (k : unit -> M Y) a d g n l : 0 <= c < 6 ->
  bind (chkseg c) k (mkSt a d g n l) = k tt (mkSt a d g n l).
Proof.
  intros. erewrite bind_ok; [reflexivity|]. unfold chkseg. cbn [ar].
  rewrite sreg_ok by auto. reflexivity.
Qed.
Lemma st_setseg c v (k : unit -> M Y) a d g n l : 0 <= c < 6 ->
  bind (setseg c v) k (mkSt a d g n l) = k tt (mkSt (with_sreg c (low 16 v) a) d g n l).
Proof.
  intros Hc. erewrite bind_ok; [reflexivity|]. unfold setseg. cbn [ar].
  assert (c = 0 \/ c = 1 \/ c = 2 \/ c = 3 \/ c = 4 \/ c = 5) as H by lia.
  repeat destruct H as [H|H]; subst c; reflexivity.
Qed.
(** Stack. *)
Definition push_a (v : Z) (a : arch) : arch :=
  let sp := low 16 (reg 16 SP a - 2) in
  smem base 16 (lin (r_ss a) sp) v (with_reg 16 SP sp a).
Lemma st_push vm v (k : unit -> M Y) a d g n l : flat E base a -> wf_regs a ->
  (vm (mkSt (with_reg 16 SP (low 16 (reg 16 SP a - 2)) a) d g n l) =
   Ok v (mkSt (with_reg 16 SP (low 16 (reg 16 SP a - 2)) a) d g n l)) ->
  bind (push E vm) k (mkSt a d g n l) = k tt (mkSt (push_a v a) d g n l).
Proof.
  intros F W Hv. unfold push. rewrite !st_bind. unfold R_SP. rewrite st_getW by lia.
  rewrite st_bind, st_setW by lia. rewrite st_bind, st_getA, st_bind, st_getW by lia.
  rewrite st_bind. erewrite bind_ok by exact Hv.
  rewrite st_wr.
  - unfold push_a. rewrite reg_same, wreg_ss.
    + rewrite low_low by lia. reflexivity.
    + unfold width; auto.
    + lia.
    + apply low_range. unfold width; auto.
  - apply flat_with_reg, F.
  - unfold width; auto.
  - rewrite wreg_ss. apply W.
Qed.
Lemma st_pop (k : Z -> M Y) a d g n l : flat E base a -> wf_regs a ->
  bind (pop E) k (mkSt a d g n l) =
  k (mem 16 a (lin (r_ss a) (reg 16 SP a))) (mkSt (with_reg 16 SP (low 16 (reg 16 SP a + 2)) a) d g n l).
Proof.
  intros F W. unfold pop. rewrite st_bind, st_getA, st_bind. unfold R_SP. rewrite st_getW by lia.
  rewrite st_bind, st_rd; [|auto|unfold width; auto|apply W].
  rewrite st_bind, st_getW by lia. rewrite st_bind, st_setW by lia. rewrite st_ret.
  pose proof (reg16_range SP a ltac:(lia)) as Hr. change low with wrap.
  rewrite (wrap_small 16 (reg 16 SP a)) by exact Hr. reflexivity.
Qed.
End Steps.

End WithEnv.

Lemma width8 : width 8. Proof. unfold width; auto. Qed.
Lemma width16 : width 16. Proof. unfold width; auto. Qed.
Lemma width32 : width 32. Proof. unfold width; auto. Qed.
Lemma osz_width p : width (osz p).
Proof. unfold osz, width. destruct (p_os p); auto. Qed.
Lemma osz_1632 p : osz p = 16 \/ osz p = 32.
Proof. unfold osz. destruct (p_os p); auto. Qed.
#[export] Hint Resolve width8 width16 width32 osz_width osz_1632 : width.
