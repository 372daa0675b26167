(** Proofs about the native tester: what a service call can change, and dispatch. *)
From Verif Require Import Base Cpu Ops Machine Spec SpecOps SpecOps2 SpecSys SpecRun Native SpecNative PBase PMem PRun PExec PIInt PNative PNative2.

Section Native.
Context (GM : Z) (fdd : option (Z * (Z -> Z))).
Notation tester := (SpecNative.tester GM). Notation host_ok := (SpecNative.host_ok GM). Notation svc := (SpecNative.svc GM).
Lemma svc_refl a : svc a a. Proof. constructor; auto. Qed.
Lemma svc_trans a b c : svc a b -> svc b c -> svc a c.
Proof.
  intros [] []. constructor; try congruence; auto.
  - intros n Hn. rewrite sv_regs0, sv_regs by exact Hn. reflexivity.
  - intros j H1 H2 H3. rewrite sv_flags0, sv_flags by assumption. reflexivity.
  - intros x Hx. rewrite sv_mem0, sv_mem by assumption. reflexivity.
Qed.
Lemma svc_gprs p w v a : 0 <= p -> 0 <= w -> p + w <= 128 \/ (224 <= p /\ p + w <= 256) -> svc a (a_gprs (setf p w v (gprs a)) a).
Proof.
  intros Hp Hw H. constructor; try reflexivity; auto.
  - intros n Hn. unfold gpr. change (getf (32 * n) 32 (gprs (a_gprs (setf p w v (gprs a)) a)) = getf (32 * n) 32 (gprs a)).
    cbn [a_gprs gprs]. apply getf_setf_disjoint; lia.
  - intros []. constructor; auto. cbn [a_gprs gprs]. apply setf_range; try lia. 
Qed.
Lemma svc_bl p v a : p = P_AX \/ p = P_BX \/ p = P_CX \/ p = P_DX -> svc a (set_bl p v a).
Proof. intros H. apply svc_gprs; unfold P_AX, P_BX, P_CX, P_DX in H; lia. Qed.
Lemma svc_bh p v a : p = P_AX \/ p = P_BX \/ p = P_CX \/ p = P_DX -> svc a (set_bh p v a).
Proof. intros H. apply svc_gprs; unfold P_AX, P_BX, P_CX, P_DX in H; lia. Qed.
Lemma svc_bw p v a : p = P_AX \/ p = P_BX \/ p = P_CX \/ p = P_DX \/ p = P_DI -> svc a (set_bw p v a).
Proof. intros H. apply svc_gprs; unfold P_AX, P_BX, P_CX, P_DX, P_DI in H; lia. Qed.
Lemma svc_es v a : 0 <= v < 65536 -> svc a (a_es v a).
Proof. intros H. constructor; try reflexivity; auto. intros []. constructor; auto. Qed.
Lemma lor_range a b : inrange 16 a -> 0 <= b < 65536 -> inrange 16 (Z.lor a b).
Proof.
  unfold inrange. intros Ha Hb. split; [apply Z.lor_nonneg; lia|]. destruct (Z.eq_dec (Z.lor a b) 0) as [->|Hn]; [lia|].
  pose proof (proj2 (Z.lor_nonneg a b) ltac:(lia)) as Hp. apply Z.log2_lt_pow2; [lia|]. rewrite Z.log2_lor by lia.
  apply Z.max_lub_lt; [destruct (Z.eq_dec a 0) as [->|]; [cbn; lia|apply Z.log2_lt_pow2; lia]|destruct (Z.eq_dec b 0) as [->|]; [cbn; lia|apply Z.log2_lt_pow2; lia]].
Qed.
Lemma ldiff_range a b : inrange 16 a -> inrange 16 (Z.ldiff a b).
Proof.
  unfold inrange. intros Ha. split; [apply Z.ldiff_nonneg; lia|]. replace (Z.ldiff a b) with (Z.ldiff a b mod 2 ^ 16); [apply Z.mod_pos_bound; lia|].
  apply Z.bits_inj'. intros j Hj. destruct (Z.lt_ge_cases j 16); [apply Z.mod_pow2_bits_low; lia|].
  rewrite Z.mod_pow2_bits_high, Z.ldiff_spec by lia. rewrite (Z.bits_above_log2 a j); [reflexivity|lia|].
  destruct (Z.eq_dec a 0) as [->|]; [cbn; lia|]. assert (Z.log2 a < 16) by (apply Z.log2_lt_pow2; lia). lia.
Qed.
Lemma svc_fl m a : m = 1 \/ m = M_ZF -> svc a (set_fl m a).
Proof.
  intros H. constructor; try reflexivity; auto.
  - intros j H0 H1 H2. unfold set_fl, flag. cbn [a_flags r_flags]. rewrite Z.lor_spec.
    destruct H as [->| ->]; [|unfold M_ZF]; [change 1 with (2 ^ 0)|change 64 with (2 ^ 6)]; rewrite Z.pow2_bits_false by lia; apply orb_false_r.
  - intros []. constructor; auto. cbn. apply lor_range; [assumption|]. destruct H as [->| ->]; unfold M_ZF; lia.
Qed.
Lemma svc_clr m a : m = 1 \/ m = M_ZF -> svc a (clr_fl m a).
Proof.
  intros H. constructor; try reflexivity; auto.
  - intros j H0 H1 H2. unfold clr_fl, flag. cbn [a_flags r_flags]. rewrite Z.ldiff_spec.
    destruct H as [->| ->]; [|unfold M_ZF]; [change 1 with (2 ^ 0)|change 64 with (2 ^ 6)]; rewrite Z.pow2_bits_false by lia; apply andb_true_r.
  - intros []. constructor; auto. cbn. apply ldiff_range. assumption.
Qed.
Lemma svc_hmem h a : (forall x, ~ tester x -> h x = hmem a x) -> (host_ok a -> forall x, tester x -> isbyte (h x)) -> svc a (a_hmem h a).
Proof. intros H1 H2. constructor; try reflexivity; auto. intros []. constructor; auto. Qed.
Lemma svc_put x v a : tester x -> svc a (a_hmem (hput x v (hmem a)) a).
Proof.
  intros Hx. apply svc_hmem; intros.
  - rewrite hput_at. destruct (Z.eqb_spec x0 x) as [->|]; [contradiction|reflexivity].
  - rewrite hput_at. destruct (Z.eqb_spec x0 x); [apply isbyte_wrap|auto].
Qed.
Lemma svc_gint p v a : GM + 0x200000 <= p -> p + 4 <= GM + 0x200030 -> svc a (set_gint p v a).
Proof.
  intros H1 H2. apply svc_hmem; intros.
  - rewrite store4_at. destruct (Z.leb_spec p x), (Z.ltb_spec x (p + 4)); cbn [andb]; try reflexivity. exfalso. apply H. right. unfold global. lia.
  - rewrite store4_at. destruct (Z.leb_spec p x), (Z.ltb_spec x (p + 4)); cbn [andb]; auto. eexists. split; [reflexivity|]. apply Z.mod_pos_bound. lia.
Qed.
Lemma svc_cx v a : svc a (set_gint (G_CX GM) v a). Proof. apply svc_gint; unfold G_CX; lia. Qed.
Lemma svc_cy v a : svc a (set_gint (G_CY GM) v a). Proof. apply svc_gint; unfold G_CY; lia. Qed.
Lemma svc_kpos v a : svc a (set_gint (G_KPOS GM) v a). Proof. apply svc_gint; unfold G_KPOS; lia. Qed.
Lemma svc_attr v a : svc a (set_gbyte (G_ATTR GM) v a). Proof. apply svc_put. right. unfold global, G_ATTR. lia. Qed.
Lemma svc_gput i v a a' : gput GM i v a = Some a' -> svc a a'.
Proof.
  unfold gput, GSIZE. destruct (Z.leb_spec 0 i), (Z.ltb_spec i 1114112); cbn [andb]; try discriminate. intros [= <-]. apply svc_put. left. unfold guest. lia.
Qed.
Lemma svc_gfill i n f a a' : gfill GM i n f a = Some a' -> svc a a'.
Proof.
  unfold gfill, GSIZE. destruct (Z.leb_spec n 0); [intros [= <-]; apply svc_refl|].
  destruct (Z.leb_spec 0 i), (Z.leb_spec (i + n) 1114112); cbn [andb]; try discriminate. intros [= <-]. apply svc_hmem; intros.
  - destruct (Z.leb_spec (GM + i) x), (Z.ltb_spec x (GM + i + n)); cbn [andb]; try reflexivity. exfalso. apply H2. left. unfold guest. lia.
  - destruct (Z.leb_spec (GM + i) x), (Z.ltb_spec x (GM + i + n)); cbn [andb]; auto. apply isbyte_wrap.
Qed.
Lemma svc_keys n a : 0 <= n <= 15 -> svc a (shift_keys GM n a).
Proof.
  intros Hn. apply svc_hmem; intros.
  - destruct (Z.leb_spec (G_KEYS GM) x), (Z.ltb_spec x (G_KEYS GM + 2 * n)); cbn [andb]; try reflexivity. exfalso. apply H. right. unfold global, G_KEYS in *. lia.
  - destruct (Z.leb_spec (G_KEYS GM) x), (Z.ltb_spec x (G_KEYS GM + 2 * n)); cbn [andb]; auto. apply H. right. unfold global, G_KEYS in *. lia.
Qed.
(** ** The services *)
Lemma svc_cell c t a a' : put_cell GM c t a = Some a' -> svc a a'.
Proof.
  unfold put_cell. destruct (gput GM (cell GM a) c a) as [a1|] eqn:E1; [|discriminate]. intros E2.
  eapply svc_trans; [eapply svc_gput; exact E1|eapply svc_gput; exact E2].
Qed.
Lemma svc_char c t a a' : put_char GM c t a = NRet a' -> svc a a'.
Proof.
  unfold put_char. destruct (c =? 10). { destruct (_ =? _); [discriminate|]. intros [= <-]. apply svc_cy. }
  destruct (c =? 13). { intros [= <-]. apply svc_cx. }
  destruct (c =? 8). { intros [= <-]. destruct (0 <? _); [apply svc_cx|apply svc_refl]. }
  destruct (put_cell GM c t a) as [a1|] eqn:E; [|discriminate]. apply svc_cell in E.
  destruct (_ =? 80); intros [= <-]; (eapply svc_trans; [exact E|]); [eapply svc_trans; [apply svc_cx|apply svc_cy]|apply svc_cx].
Qed.
Lemma svc_string s t : forall a a', put_string GM s t a = NRet a' -> svc a a'.
Proof.
  induction s as [|c s IH]; intros a a'; cbn [put_string]; [intros [= <-]; apply svc_refl|].
  destruct (put_char GM c t a) as [a1| | |] eqn:E; try discriminate. intros H. eapply svc_trans; [eapply svc_char; exact E|apply IH, H].
Qed.
Lemma svc_clear n t : forall i a a', clear_cells GM n i t a = Some a' -> svc a a'.
Proof.
  induction n as [|n IH]; intros i a a'; cbn [clear_cells]; [intros [= <-]; apply svc_refl|].
  destruct (gput GM (0xB8000 + i * 2) 0 a) as [a1|] eqn:E1; [|discriminate]. destruct (gput GM (0xB8000 + i * 2 + 1) t a1) as [a2|] eqn:E2; [|discriminate].
  intros H. eapply svc_trans; [eapply svc_gput; exact E1|]. eapply svc_trans; [eapply svc_gput; exact E2|]. eapply IH, H.
Qed.
Lemma svc_repeat n c t : forall a a', repeat_char GM n c t a = NRet a' -> svc a a'.
Proof.
  induction n as [|n IH]; intros a a'; cbn [repeat_char]; [intros [= <-]; apply svc_refl|].
  destruct (put_cell GM c t a) as [a1|] eqn:E1; [|discriminate]. apply svc_cell in E1. destruct (_ =? 25); [intros [= <-]; exact E1|].
  intros H. eapply svc_trans; [exact E1|]. eapply svc_trans; [apply svc_cx|]. apply IH, H.
Qed.
Lemma svc_lba d l c i a r a' : read_lba GM fdd d l c i a = Some (r, a') -> svc a a'.
Proof.
  unfold read_lba. destruct (d =? 0); [|intros [= _ <-]; apply svc_refl]. destruct fdd as [[len img]|]; [|discriminate]. destruct (_ || _); [discriminate|].
  destruct (_ <? 0).
  - destruct (gfill _ _ _ _ _) as [a1|] eqn:E; [|discriminate]. intros [= _ <-]. eapply svc_gfill, E.
  - destruct (gfill _ _ _ _ _) as [a1|] eqn:E; [|discriminate]. intros [= _ <-]. eapply svc_gfill, E.
Qed.
Lemma svc_chs d cy h s c i a r a' : read_chs GM fdd d cy h s c i a = Some (r, a') -> svc a a'.
Proof.
  unfold read_chs. destruct (disk_params d) as [[[[? ?] ?] ?]|]; [|intros [= _ <-]; apply svc_refl].
  destruct (_ <=? _); [intros [= _ <-]; apply svc_refl|]. destruct (_ <=? _); [intros [= _ <-]; apply svc_refl|]. destruct (_ <? _); [intros [= _ <-]; apply svc_refl|].
  apply svc_lba.
Qed.
Ltac sv := match goal with
  | |- svc ?a ?a => apply svc_refl
  | |- svc _ (set_bl _ _ _) => eapply svc_trans; [|apply svc_bl; tauto]
  | |- svc _ (set_bh _ _ _) => eapply svc_trans; [|apply svc_bh; tauto]
  | |- svc _ (set_bw _ _ _) => eapply svc_trans; [|apply svc_bw; tauto]
  | |- svc _ (set_fl _ _) => eapply svc_trans; [|apply svc_fl; tauto]
  | |- svc _ (clr_fl _ _) => eapply svc_trans; [|apply svc_clr; tauto]
  | |- svc _ (a_es _ _) => eapply svc_trans; [|apply svc_es; lia]
  | |- svc _ (set_gint (G_CX GM) _ _) => eapply svc_trans; [|apply svc_cx]
  | |- svc _ (set_gint (G_CY GM) _ _) => eapply svc_trans; [|apply svc_cy]
  | |- svc _ (set_gint (G_KPOS GM) _ _) => eapply svc_trans; [|apply svc_kpos]
  | |- svc _ (set_gbyte (G_ATTR GM) _ _) => eapply svc_trans; [|apply svc_attr]
  | |- svc _ (shift_keys GM _ _) => eapply svc_trans; [|apply svc_keys; lia]
  end.
Ltac done_sv := intros [= <-]; repeat sv.
Lemma svc_10 a a' : hle10 GM a = NRet a' -> svc a a'.
Proof.
  unfold hle10. destruct (_ =? 0); [destruct (_ =? 3); [done_sv|discriminate]|]. destruct (_ =? 1); [done_sv|].
  destruct (_ =? 2); [done_sv|]. destruct (_ =? 5); [done_sv|].
  destruct (_ =? 6). { destruct (_ =? 0); [|done_sv]. unfold of_opt. destruct (clear_cells _ _ _ _ _) as [a1|] eqn:E; [|discriminate]. intros [= <-]. eapply svc_clear, E. }
  destruct (_ =? 8). { destruct (gget _ _ _); [|discriminate]. destruct (gget _ _ _); [|discriminate]. done_sv. }
  destruct (_ =? 9); [apply svc_repeat|]. destruct (_ =? 14); [apply svc_char|]. destruct (_ =? 15); [done_sv|].
  destruct (_ =? 16). { destruct (_ =? 4099); [done_sv|discriminate]. }
  destruct (_ =? 18); [done_sv|discriminate].
Qed.
Lemma svc_13 a a' : hle13 GM fdd a = NRet a' -> svc a a'.
Proof.
  unfold hle13. destruct (_ =? 0); [done_sv|]. destruct (_ =? 2).
  { unfold hle13_read. destruct (_ =? 0); [done_sv|]. cbv zeta. destruct (read_chs _ _ _ _ _ _ _ _ _) as [[r a1]|] eqn:E; [|discriminate]. apply svc_chs in E.
    destruct (r <? 0); [intros [= <-]; repeat sv; exact E|]. destruct (negb _); intros [= <-]; repeat sv; exact E. }
  destruct (_ =? 8).
  { unfold hle13_params. cbv zeta. destruct (disk_params _) as [[[[? ?] ?] ?]|]; done_sv. }
  destruct (_ =? 21).
  { unfold hle13_type. cbv zeta. unfold disk_params. destruct (_ =? 0); done_sv. }
  destruct (_ =? 66); [|discriminate]. unfold hle13_ext. cbv zeta.
  destruct (gword _ _ _ _); [|discriminate]. destruct (gword _ _ _ _); [|discriminate]. destruct (gword _ _ _ _); [|discriminate]. destruct (gword _ _ _ _); [|discriminate].
  destruct (_ <? _); [done_sv|]. destruct (read_lba _ _ _ _ _ _ _) as [[r a1]|] eqn:E; [|discriminate]. apply svc_lba in E. intros [= <-]; repeat sv; exact E.
Qed.
Lemma svc_16 gui a a' : hle16 GM gui a = NRet a' -> svc a a'.
Proof.
  unfold hle16. destruct (_ =? 0).
  { destruct (_ =? 0); [destruct gui; discriminate|]. cbv zeta. destruct (Z.ltb_spec (gint (G_KPOS GM) a - 1) 0); [discriminate|].
    destruct (Z.ltb_spec 15 (gint (G_KPOS GM) a - 1)); [discriminate|]. cbn [orb]. done_sv. }
  destruct (_ || _). { destruct (0 <? _); done_sv. }
  destruct (_ =? 2); [done_sv|discriminate].
Qed.
Theorem svc_callback gui h n a a' : nt_callback GM fdd gui h n a = NRet a' -> svc a a'.
Proof.
  unfold nt_callback. destruct (_ =? 1).
  { unfold hle_any. destruct (_ =? 3); [discriminate|]. destruct (_ =? 22); [apply svc_16|]. destruct (_ || _); [|done_sv].
    destruct (put_string _ _ _ _); discriminate. }
  destruct (_ =? 2); [apply svc_10|]. destruct (_ =? 3); [unfold hle12; done_sv|]. destruct (_ =? 4); [apply svc_13|done_sv].
Qed.
Lemma svc_flat E a a' : flat E GM a -> host_ok a -> svc a a' -> flat E GM a'.
Proof.
  intros [A B C D] Hh V. constructor; auto.
  - intros b Hb. rewrite (sv_mtab _ _ _ V). auto.
  - intros x Hx. apply (sv_host _ _ _ V Hh). left. unfold guest. lia.
Qed.
Lemma nt_callbacks gui nullc : callbacks (nt_env GM fdd gui nullc) (fun h n a => nt_ret a (nt_callback GM fdd gui h n a)).
Proof. intros h n s. reflexivity. Qed.
(** INT n with the tester's vector. *)
Theorem service_call gui nullc s pre p bs n a' : fetched (nt_env GM fdd gui nullc) GM s pre p bs -> int_number bs = Some n ->
  (bs = [0xCE] -> flag OF (r_flags (ar s)) = true) -> vector n (ar s) = (0xB800, n) -> host_ok (ar s) -> hle (ar s) = nt_hle -> nt_hle n <> 0 ->
  nt_callback GM fdd gui (nt_hle n) n (ar s) = NRet a' ->
  executes_to (nt_env GM fdd gui nullc) s (pre ++ bs) (a_ip ((r_ip (ar s) + blen (pre ++ bs)) mod 65536) a').
Proof.
  intros Hf Hn Ho Hv Hh Hl Hz Hc. pose proof (svc_callback _ _ _ _ _ Hc) as V.
  assert (E : hle_effect (fun h n a => nt_ret a (nt_callback GM fdd gui h n a)) n (ar s) = a').
  { unfold hle_effect. rewrite Hl. replace (nt_hle n =? 0) with false by lia. rewrite Hc. reflexivity. }
  rewrite <- (sv_ip _ _ _ V), <- E. apply (int_hle_instr (nt_env GM fdd gui nullc) GM _ s pre p bs n (nt_callbacks gui nullc) Hf Hn Ho Hv).
  rewrite E. destruct Hf as ([F _ _ _] & _). eapply svc_flat; eauto.
Qed.
(** ... or another vector of the same kind, without an installed function: ignored. *)
Theorem service_none gui nullc s pre p bs n : fetched (nt_env GM fdd gui nullc) GM s pre p bs -> int_number bs = Some n ->
  (bs = [0xCE] -> flag OF (r_flags (ar s)) = true) -> vector n (ar s) = (0xB800, n) -> hle (ar s) = nt_hle -> nt_hle n = 0 ->
  executes_to (nt_env GM fdd gui nullc) s (pre ++ bs) (a_ip ((r_ip (ar s) + blen (pre ++ bs)) mod 65536) (ar s)).
Proof.
  intros Hf Hn Ho Hv Hl Hz. set (f := fun h n a => nt_ret a (nt_callback GM fdd gui h n a)).
  assert (E : hle_effect f n (ar s) = ar s) by (unfold hle_effect; rewrite Hl, Hz; reflexivity).
  pose proof (int_hle_instr (nt_env GM fdd gui nullc) GM f s pre p bs n (nt_callbacks gui nullc) Hf Hn Ho Hv) as X. rewrite E in X.
  apply X. destruct Hf as ([F _ _ _] & _). exact F.
Qed.
End Native.
