(** Operand decoding and the frame of RME_RunOne. *)
From Verif Require Import Base Cpu Alu Ops Machine Spec PBase PMem.

Ltac msteps := repeat first
  [ rewrite st_bind | rewrite st_ret | rewrite st_getA | rewrite st_getD | rewrite st_getflags
  | rewrite st_upd_ar | rewrite st_upd_dc | rewrite st_set_flags | rewrite st_set_ip
  | rewrite st_set_cs | rewrite st_opw | rewrite st_err | rewrite st_dont | rewrite st_next_ip
  | progress cbv beta ].

(** Decoder state after the prefixes p with [off] bytes consumed. *)
Definition dec_of (p : pfx) (off : Z) : dec :=
  mkDec (match p_seg p with Some n => n | None => -1 end) (p_rep p) (p_os p) (p_as p) false off.

Definition pfx_ok (p : pfx) : Prop := match p_seg p with Some n => 0 <= n < 6 | None => True end.

Lemma sreg_ok n a : 0 <= n < 6 -> sreg_of n a = Some (sreg n a).
Proof.
  intros. assert (n = 0 \/ n = 1 \/ n = 2 \/ n = 3 \/ n = 4 \/ n = 5) as Hn by lia.
  destruct Hn as [-> | [-> | [-> | [-> | [-> | ->]]]]]; reflexivity.
Qed.
Lemma sreg_range n a : wf_regs a -> inrange 16 (sreg n a).
Proof.
  intros []. unfold sreg. destruct n as [|[[[]|[]|]|[[]|[]|]|]|]; assumption.
Qed.
Lemma getseg_ok n a d g c l : 0 <= n < 6 ->
  getseg n (mkSt a d g c l) = Ok (sreg n a) (mkSt a d g c l).
Proof. intros. unfold getseg. cbn [ar]. rewrite sreg_ok by auto. reflexivity. Qed.
Lemma getW_ok r a d g c l : 0 <= r < 8 ->
  getW r (mkSt a d g c l) = Ok (reg 16 r a) (mkSt a d g c l).
Proof.
  intros. rewrite reg_getf by (auto; unfold width; lia). reflexivity.
Qed.
Lemma reg16_range r a : 0 <= r < 8 -> inrange 16 (reg 16 r a).
Proof. intros. rewrite reg_getf by (auto; unfold width; lia). apply getf_range; lia. Qed.

Lemma eight (m : Z) (P : Z -> Prop) : P 0 -> P 1 -> P 2 -> P 3 -> P 4 -> P 5 -> P 6 -> P 7 ->
  0 <= m < 8 -> P m.
Proof.
  intros. assert (m = 0 \/ m = 1 \/ m = 2 \/ m = 3 \/ m = 4 \/ m = 5 \/ m = 6 \/ m = 7) as Hm by lia.
  repeat destruct Hm as [->|Hm]; try assumption. subst; assumption.
Qed.

Section WithEnv.
Context (E : env) (base : Z).

Lemma get_modrm_code a p off g n l b t : flat E base a -> wf_regs a ->
  code_from a off (b :: t) ->
  get_modrm E (mkSt a (dec_of p off) g n l) =
  Ok (modrm_of b) (mkSt a (dec_of p (off + 1)) g n l).
Proof.
  intros F W C. unfold get_modrm.
  erewrite bind_ok by (eapply fetch8_code; eauto). reflexivity.
Qed.

(** The segment register actually used by the emulator. *)
Definition ea_sreg_m (p : pfx) (md m : Z) : Z :=
  match p_seg p with
  | Some n => n
  | None => if negb (md =? 0) && ((m =? 2) || (m =? 3) || (m =? 6)) then 2 else 3
  end.
Lemma ea_segment_ok a p off g n l m nd md : pfx_ok p -> 0 <= m < 8 -> nd = (md =? 0) ->
  ea_segment m nd (mkSt a (dec_of p off) g n l) =
  Ok (sreg (ea_sreg_m p md m) a) (mkSt a (dec_of p off) g n l).
Proof.
  intros Hp Hm ->. unfold ea_segment. msteps. cbn [d_seg dec_of].
  unfold ea_sreg_m, pfx_ok in *. destruct (p_seg p) as [k|].
  - replace (k =? -1) with false by lia. apply getseg_ok; lia.
  - change (-1 =? -1) with true. cbv iota.
    rewrite getseg_ok.
    + unfold S_SS, S_DS. reflexivity.
    + unfold S_SS, S_DS. destruct (_ && _); lia.
Qed.

(** Result of 16-bit effective address computation: no reduction modulo 65536. *)
Definition ea_raw (md m : Z) (d : Z) (a : arch) : Z :=
  if md =? 0 then (if m =? 6 then wrap 32 d else ea_base m a)
  else wrap 32 (ea_base m a + d).

Lemma signed_sgn w x : inrange w x -> signed w x = sgn w x.
Proof. intros H. unfold signed, sgn. rewrite wrap_small by exact H. reflexivity. Qed.

Lemma sgn16_sgn8 b : 0 <= b < 256 -> sgn 16 (sgn 8 b) = sgn 8 b.
Proof.
  intros H. unfold sgn at 2 3. unfold wrap. rewrite (Z.mod_small b) by lia.
  destruct (Z.ltb_spec b (2 ^ (8 - 1))); unfold sgn, wrap; change (2 ^ (8 - 1)) with 128 in *;
  change (2 ^ (16 - 1)) with 32768; change (2 ^ 16) with 65536; change (2 ^ 8) with 256.
  - rewrite Z.mod_small by lia. replace (b <? 32768) with true by lia. reflexivity.
  - replace ((b - 256) mod 65536) with (b - 256 + 65536) by lia.
    replace (b - 256 + 65536 <? 32768) with false by lia. lia.
Qed.

Lemma dofunc_ok a p off g n l m d t b0 b1 :
  flat E base a -> wf_regs a -> pfx_ok p -> 0 <= m < 8 ->
  forall nd, (nd = true -> m = 6 -> code_from a off (b0 :: b1 :: t) /\ d = signed 16 (b0 + 256 * b1)) ->
  dofunc E m nd (if nd then 0 else d) (mkSt a (dec_of p off) g n l) =
  Ok (sreg (ea_sreg_m p (if nd then 0 else 1) m) a, ea_raw (if nd then 0 else 1) m d a)
     (mkSt a (dec_of p (if nd && (m =? 6) then off + 2 else off)) g n l).
Proof.
  intros F W Hp Hm nd Hnd. unfold dofunc.
  erewrite bind_ok by (apply (ea_segment_ok _ _ _ _ _ _ _ _ (if nd then 0 else 1)); auto;
                       destruct nd; reflexivity).
  revert Hnd. pattern m. apply eight; auto; intros Hnd; cbn [Z.eqb Pos.eqb andb];
    try (msteps; repeat (erewrite bind_ok by (apply getW_ok; unfold R_BX, R_BP, R_SI, R_DI; lia);
         msteps); destruct nd; reflexivity).
  destruct nd.
  - destruct (Hnd eq_refl eq_refl) as [C Hd].
    msteps. unfold fetch16. erewrite bind_ok by (eapply fetch16_code; eauto).
    msteps. unfold ret. cbn.
    pose proof (code_byte_range E base a off b0 (b1 :: t) F W C).
    pose proof (code_byte_range E base a (off + 1) b1 t F W
                  (proj2 (code_from_cons _ _ _ _ C))).
    unfold ea_raw. cbn [Z.eqb]. rewrite Hd, signed_sgn by (unfold inrange; lia). reflexivity.
  - erewrite bind_ok by (apply getW_ok; unfold R_BP; lia). reflexivity.
Qed.

Lemma get_mmm_ok a p off g n l b t d r :
  flat E base a -> wf_regs a -> pfx_ok p -> p_as p = false ->
  0 <= b < 256 -> b / 64 <> 3 ->
  code_from a off t -> disp (b / 64) (b mod 8) t = Some (d, r) ->
  get_mmm E (modrm_of b) (mkSt a (dec_of p off) g n l) =
  Ok (sreg (ea_sreg_m p (b / 64) (b mod 8)) a, ea_raw (b / 64) (b mod 8) d a)
     (mkSt a (dec_of p (off + (blen t - blen r))) g n l).
Proof.
  intros F W Hp Ha Hb Hmd C Hd. unfold get_mmm. msteps. cbn [d_addr dec_of]. rewrite Ha.
  unfold modrm_of. cbn [m_mod m_mmm].
  assert (b / 64 = 0 \/ b / 64 = 1 \/ b / 64 = 2) as Hc by lia.
  unfold disp in Hd.
  assert (Hm : 0 <= b mod 8 < 8) by lia.
  destruct Hc as [Hc | [Hc | Hc]]; rewrite Hc in *; cbn [Z.eqb Pos.eqb orb] in Hd.
  - destruct (Z.eqb_spec (b mod 8) 6) as [H6|H6].
    + destruct t as [|b0 [|b1 t']]; try discriminate. injection Hd as <- <-.
      pose proof (dofunc_ok a p off g n l (b mod 8) (signed 16 (b0 + 256 * b1)) t' b0 b1
                    F W Hp Hm true) as H.
      cbn [andb] in H. rewrite H by auto.
      rewrite H6. cbn [Z.eqb Pos.eqb]. rewrite !blen_cons. do 3 f_equal. lia.
    + injection Hd as <- <-.
      pose proof (dofunc_ok a p off g n l (b mod 8) 0 [] 0 0 F W Hp Hm true) as H.
      cbn [andb] in H. rewrite H by (intros; lia).
      replace (b mod 8 =? 6) with false by lia. do 3 f_equal. lia.
  - destruct t as [|b0 t']; try discriminate. injection Hd as <- <-.
    unfold fetch8s. rewrite st_bind. erewrite bind_ok by (eapply fetch8_code; eauto).
    msteps.
    pose proof (code_byte_range E base a off b0 t' F W C).
    rewrite sgn16_sgn8 by lia.
    pose proof (dofunc_ok a p (off + 1) g n l (b mod 8) (sgn 8 b0) [] 0 0 F W Hp Hm false) as H1.
    cbn [andb] in H1. cbn [d_ipoff dec_of]. change (dd_ipoff (off + 1) (dec_of p off)) with (dec_of p (off + 1)).
    rewrite H1 by (intros; discriminate).
    rewrite signed_sgn by (unfold inrange; lia). rewrite blen_cons. do 3 f_equal. lia.
  - destruct t as [|b0 [|b1 t']]; try discriminate. injection Hd as <- <-.
    unfold fetch16. erewrite bind_ok by (eapply fetch16_code; eauto).
    pose proof (code_byte_range E base a off b0 _ F W C).
    pose proof (code_byte_range E base a (off + 1) b1 t' F W
                  (proj2 (code_from_cons _ _ _ _ C))).
    cbn [d_ipoff dec_of]. change (dd_ipoff (off + 2) (dec_of p off)) with (dec_of p (off + 2)).
    pose proof (dofunc_ok a p (off + 2) g n l (b mod 8) (sgn 16 (b0 + 256 * b1)) [] 0 0
                  F W Hp Hm false) as H2.
    cbn [andb] in H2. rewrite H2 by (intros; discriminate).
    rewrite signed_sgn by (unfold inrange; lia). rewrite !blen_cons. do 3 f_equal. lia.
Qed.

Lemma ea_base_range m a : 0 <= ea_base m a < 131072.
Proof.
  pose proof (reg16_range BX a ltac:(lia)) as [? ?]. pose proof (reg16_range SI a ltac:(lia)) as [? ?].
  pose proof (reg16_range DI a ltac:(lia)) as [? ?]. pose proof (reg16_range BP a ltac:(lia)) as [? ?].
  unfold ea_base. destruct m as [|[[[]|[]|]|[[]|[]|]|]|]; lia.
Qed.

(** Under [ea_supported] the emulator's segment and offset are the architectural ones. *)
Lemma ea_supported_ok p a b t d r : p_as p = false -> ea_supported p a (b :: t) -> 0 <= b < 256 -> b / 64 <> 3 ->
  disp (b / 64) (b mod 8) t = Some (d, r) ->
  sreg (ea_sreg_m p (b / 64) (b mod 8)) a = sreg (ea_sreg p (b / 64) (b mod 8)) a /\
  ea_raw (b / 64) (b mod 8) d a =
  low 16 ((if (b / 64 =? 0) && (b mod 8 =? 6) then 0 else ea_base (b mod 8) a) + d) /\
  inrange 16 (ea_raw (b / 64) (b mod 8) d a).
Proof.
  intros Ha Hs Hb Hmd Hd. cbn [ea_supported] in Hs. specialize (Hs Hmd). rewrite Ha, Hd in Hs.
  destruct Hs as [Hr Hseg]. split; [|split].
  - unfold ea_sreg_m, ea_sreg. destruct (p_seg p); [reflexivity|].
    destruct (Z.eqb_spec (b / 64) 0) as [H0|H0]; cbn [negb andb].
    + destruct (Z.eqb_spec (b mod 8) 2) as [H2|H2]; [symmetry; cbn; apply Hseg; auto|].
      destruct (Z.eqb_spec (b mod 8) 3) as [H3|H3]; [symmetry; cbn; apply Hseg; auto|].
      rewrite andb_false_r. reflexivity.
    + rewrite andb_true_r. reflexivity.
  - unfold ea_raw, low. pose proof (ea_base_range (b mod 8) a).
    destruct (b / 64 =? 0) eqn:H0; rewrite ?H0 in Hr; cbn [andb] in *.
    + destruct (b mod 8 =? 6) eqn:H6; rewrite ?H6 in Hr; cbv iota in Hr.
      * rewrite wrap_small by (unfold inrange; lia). rewrite (Z.mod_small (_ + _)) by lia. lia.
      * unfold disp in Hd. replace (b / 64 =? 1) with false in Hd by lia.
        replace ((b / 64 =? 2) || (b mod 8 =? 6)) with false in Hd by lia. injection Hd as <- _.
        rewrite (Z.mod_small (_ + _)) by lia. lia.
    + rewrite wrap_small by (unfold inrange; lia). rewrite (Z.mod_small (_ + _)) by lia. lia.
  - unfold ea_raw, inrange. pose proof (ea_base_range (b mod 8) a).
    destruct (b / 64 =? 0) eqn:H0; rewrite ?H0 in Hr; cbn [andb] in *.
    + destruct (b mod 8 =? 6) eqn:H6; rewrite ?H6 in Hr; cbv iota in Hr.
      * rewrite wrap_small by (unfold inrange; lia). lia.
      * unfold disp in Hd. replace (b / 64 =? 1) with false in Hd by lia.
        replace ((b / 64 =? 2) || (b mod 8 =? 6)) with false in Hd by lia. injection Hd as <- _.
        lia.
    + rewrite wrap_small by (unfold inrange; lia). lia.
Qed.

Lemma disp_blen md m t d r : disp md m t = Some (d, r) -> exists u, t = u ++ r.
Proof.
  unfold disp. destruct (md =? 1); [|destruct ((md =? 2) || (m =? 6))].
  - destruct t as [|x t]; intros [= <- <-]. exists [x]; reflexivity.
  - destruct t as [|x [|y t]]; try discriminate. intros [= <- <-]. exists [x; y]; reflexivity.
  - intros [= <- <-]. exists []; reflexivity.
Qed.
Lemma dword_blen t d r : dword t = Some (d, r) -> exists u, t = u ++ r.
Proof.
  unfold dword. destruct t as [|x [|y [|z [|w t]]]]; try discriminate. intros [= <- <-]. exists [x; y; z; w]; reflexivity.
Qed.
Lemma disp32_blen md t d r : disp32 md t = Some (d, r) -> exists u, t = u ++ r.
Proof.
  unfold disp32. destruct (md =? 1); [|destruct (md =? 2)].
  - destruct t as [|x t]; intros [= <- <-]. exists [x]; reflexivity.
  - apply dword_blen.
  - intros [= <- <-]. exists []; reflexivity.
Qed.
Lemma add_disp_some x o v r : add_disp x o = Some (v, r) -> exists d, o = Some (d, r) /\ v = x + d.
Proof. destruct o as [[d r']|]; [|discriminate]. intros [= <- <-]. eauto. Qed.
Lemma ea32_blen md m a t d r : snd (ea32 md m a t) = Some (d, r) -> exists u, t = u ++ r.
Proof.
  unfold ea32. destruct (m =? 4).
  - destruct t as [|sib t]; [discriminate|]. destruct (_ && _); cbn [snd]; intros H; apply add_disp_some in H as (d' & H & _);
    [apply dword_blen in H|apply disp32_blen in H]; destruct H as (u & ->); exists (sib :: u); reflexivity.
  - destruct (_ && _); cbn [snd]; intros H; [apply dword_blen in H; exact H|].
    apply add_disp_some in H as (d' & H & _). apply disp32_blen in H. exact H.
Qed.
Lemma parse_rm_split p a bs rg r rest : parse_rm p a bs = Some (rg, r, rest) ->
  exists u, bs = u ++ rest /\ 1 <= blen u.
Proof.
  destruct bs as [|b t]; [discriminate|]. cbn [parse_rm].
  destruct (b / 64 =? 3); [intros [= <- <- <-]; exists [b]; split; [reflexivity|cbn; unfold blen; cbn; lia]|].
  destruct (p_as p).
  - destruct (snd (ea32 (b / 64) (b mod 8) a t)) as [[x r']|] eqn:Hd; [|discriminate].
    destruct (low 32 x <? 65536); [|discriminate].
    intros [= <- <- <-]. destruct (ea32_blen _ _ _ _ _ _ Hd) as [u ->].
    exists (b :: u). split; [reflexivity|]. rewrite blen_cons. pose proof (blen_nonneg u). lia.
  - destruct (disp (b / 64) (b mod 8) t) as [[d r']|] eqn:Hd; [|discriminate].
    intros [= <- <- <-]. destruct (disp_blen _ _ _ _ _ Hd) as [u ->].
    exists (b :: u). split; [reflexivity|]. rewrite blen_cons. pose proof (blen_nonneg u). lia.
Qed.

Lemma parse_rm_rg p a b t rg r rest : parse_rm p a (b :: t) = Some (rg, r, rest) -> rg = (b / 8) mod 8.
Proof.
  cbn [parse_rm]. destruct (b / 64 =? 3); [intros [= <- <- <-]; reflexivity|].
  destruct (p_as p).
  - destruct (snd (ea32 (b / 64) (b mod 8) a t)) as [[x r']|]; [|discriminate].
    destruct (low 32 x <? 65536); [|discriminate]. intros [= <- <- <-]. reflexivity.
  - destruct (disp (b / 64) (b mod 8) t) as [[d r']|]; [|discriminate].
    intros [= <- <- <-]. reflexivity.
Qed.

Lemma parse_rm_ok p a bs rg r rest : wf_regs a ->
  parse_rm p a bs = Some (rg, r, rest) -> rm_ok r /\ 0 <= rg < 8.
Proof.
  intros W. destruct bs as [|b t]; [discriminate|]. cbn [parse_rm].
  destruct (b / 64 =? 3).
  { intros [= <- <- <-]. cbn. lia. }
  destruct (p_as p).
  - destruct (snd (ea32 (b / 64) (b mod 8) a t)) as [[x r']|]; [|discriminate].
    destruct (Z.ltb_spec (low 32 x) 65536) as [Hl|]; [|discriminate].
    intros [= <- <- <-]. pose proof (Z.mod_pos_bound x (2 ^ 32) ltac:(lia)) as Hx. fold (low 32 x) in Hx.
    cbn [rm_ok]. repeat split; try apply sreg_range; auto; try lia.
  - destruct (disp (b / 64) (b mod 8) t) as [[d r']|]; [|discriminate].
    intros [= <- <- <-]. cbn [rm_ok]. repeat split; try apply sreg_range; auto; try lia;
    unfold low; apply Z.mod_pos_bound; lia.
Qed.

(** *** 32-bit addressing *)
Lemma getDw_ok r a d g c l : 0 <= r < 8 ->
  getDw r (mkSt a d g c l) = Ok (reg 32 r a) (mkSt a d g c l).
Proof. intros. rewrite reg_getf by (auto; unfold width; lia). reflexivity. Qed.
Lemma reg32_range r a : 0 <= r < 8 -> inrange 32 (reg 32 r a).
Proof. intros. rewrite reg_getf by (auto; unfold width; lia). apply getf_range; lia. Qed.
Lemma sib_index_ok i a d g c l : 0 <= i < 8 ->
  sib_index i (mkSt a d g c l) = Ok (if i =? 4 then 0 else reg 32 i a) (mkSt a d g c l).
Proof. intros. unfold sib_index. destruct (i =? 4); [reflexivity|]. apply getDw_ok; auto. Qed.

(** The register-only forms. *)
Lemma dofunc32_reg a p off g n l m (nd : bool) d : pfx_ok p -> 0 <= m < 8 -> m <> 4 -> (nd = true -> m <> 5) ->
  dofunc32 E m nd (if nd then 0 else d) (mkSt a (dec_of p off) g n l) =
  Ok (sreg (ea_sreg_m p (if nd then 0 else 1) m) a, if nd then reg 32 m a else wrap 32 (reg 32 m a + d))
     (mkSt a (dec_of p off) g n l).
Proof.
  intros Hp Hm H4 H5. unfold dofunc32.
  erewrite bind_ok by (apply (ea_segment_ok _ _ _ _ _ _ _ _ (if nd then 0 else 1)); auto;
                       destruct nd; reflexivity).
  revert H4 H5. pattern m. apply eight; auto; intros H4 H5; try congruence;
    try (msteps; erewrite bind_ok by (apply getDw_ok; unfold R_AX, R_CX, R_DX, R_BX, R_SI, R_DI; lia); destruct nd; reflexivity).
  destruct nd; [exfalso; apply H5; reflexivity|].
  erewrite bind_ok by (apply getDw_ok; unfold R_BP; lia). reflexivity.
Qed.
Lemma dofunc32_disp a p off g n l b0 b1 b2 b3 t : flat E base a -> wf_regs a -> pfx_ok p ->
  code_from a off (b0 :: b1 :: b2 :: b3 :: t) ->
  dofunc32 E 5 true 0 (mkSt a (dec_of p off) g n l) =
  Ok (sreg (ea_sreg_m p 0 5) a, b0 + 256 * b1 + 65536 * b2 + 16777216 * b3) (mkSt a (dec_of p (off + 4)) g n l).
Proof.
  intros F W Hp C. unfold dofunc32.
  erewrite bind_ok by (apply (ea_segment_ok _ _ _ _ _ _ _ _ 0); auto; lia).
  unfold fetch32. erewrite bind_ok by (eapply fetch32_code; eauto). reflexivity.
Qed.
Lemma dofunc32_sib a p off g n l sib u : flat E base a -> wf_regs a -> pfx_ok p ->
  code_from a off (sib :: u) -> sib mod 8 <> 5 ->
  dofunc32 E 4 true 0 (mkSt a (dec_of p off) g n l) =
  Ok (sreg (ea_sreg_m p 0 4) a, low 32 ((if (sib / 8) mod 8 =? 4 then 0 else reg 32 ((sib / 8) mod 8) a * 2 ^ (sib / 64)) + reg 32 (sib mod 8) a))
     (mkSt a (dec_of p (off + 1)) g n l).
Proof.
  intros F W Hp C H5. unfold dofunc32.
  erewrite bind_ok by (apply (ea_segment_ok _ _ _ _ _ _ _ _ 0); auto; lia).
  unfold fetch8. rewrite st_bind. erewrite bind_ok by (eapply fetch8_code; eauto).
  rewrite st_bind. erewrite bind_ok by (apply sib_index_ok; lia). cbv zeta.
  replace (sib mod 8 =? 5) with false by lia.
  rewrite st_bind. erewrite bind_ok by (apply getDw_ok; lia). rewrite st_ret. unfold ret.
  cbn [d_ipoff dec_of]. change (dd_ipoff (off + 1) (dec_of p off)) with (dec_of p (off + 1)).
  do 2 f_equal. unfold wrap, low. rewrite Z.add_mod_idemp_l by lia.
  destruct (sib / 8 mod 8 =? 4); reflexivity.
Qed.
Lemma dofunc32_sib5 a p off g n l sib b0 b1 b2 b3 u : flat E base a -> wf_regs a -> pfx_ok p ->
  code_from a off (sib :: b0 :: b1 :: b2 :: b3 :: u) -> sib mod 8 = 5 ->
  dofunc32 E 4 true 0 (mkSt a (dec_of p off) g n l) =
  Ok (sreg (ea_sreg_m p 0 4) a, low 32 (if (sib / 8) mod 8 =? 4 then 0 else reg 32 ((sib / 8) mod 8) a * 2 ^ (sib / 64)))
     (mkSt a (dec_of p (off + 5)) g n l).
Proof.
  intros F W Hp C H5. unfold dofunc32.
  erewrite bind_ok by (apply (ea_segment_ok _ _ _ _ _ _ _ _ 0); auto; lia).
  unfold fetch8. rewrite st_bind. erewrite bind_ok by (eapply fetch8_code; eauto).
  rewrite st_bind. erewrite bind_ok by (apply sib_index_ok; lia). cbv zeta.
  replace (sib mod 8 =? 5) with true by lia.
  rewrite st_bind. cbn [d_ipoff dec_of]. change (dd_ipoff (off + 1) (dec_of p off)) with (dec_of p (off + 1)).
  unfold fetch32. erewrite bind_ok by (eapply fetch32_code; eauto; apply (code_from_cons _ _ _ _ C)).
  rewrite st_ret. unfold ret. cbn [d_ipoff dec_of]. change (dd_ipoff (off + 1 + 4) (dec_of p (off + 1))) with (dec_of p (off + 1 + 4)).
  replace (off + 1 + 4) with (off + 5) by lia.
  do 2 f_equal. unfold wrap, low. destruct (sib / 8 mod 8 =? 4); reflexivity.
Qed.
Lemma wrap16_sgn8 b : 0 <= b < 256 -> 0 <= signed 8 b -> wrap 16 (sgn 8 b) = signed 8 b.
Proof.
  intros H H0. rewrite <- signed_sgn by (unfold inrange; lia). apply wrap_small.
  unfold signed, inrange in *. change (2 ^ (8 - 1)) with 128 in *. change (2 ^ 8) with 256 in *. destruct (b <? 128); lia.
Qed.
Lemma seg32_ok p md m a t : 0 <= md < 3 -> 0 <= m < 8 -> ea32_supported p md m a t ->
  sreg (ea_sreg_m p (if md =? 0 then 0 else 1) m) a =
  sreg (match p_seg p with Some n => n | None => if fst (ea32 md m a t) then 2 else 3 end) a.
Proof.
  intros Hmd Hm (_ & _ & Hs). unfold ea_sreg_m. destruct (p_seg p); [reflexivity|]. specialize (Hs eq_refl).
  destruct (fst (ea32 md m a t)).
  - specialize (Hs (or_introl eq_refl)). destruct (_ && _); [reflexivity|]. symmetry; exact Hs.
  - destruct (negb ((if md =? 0 then 0 else 1) =? 0) && _) eqn:Hb; [|reflexivity].
    apply Hs. right. destruct (Z.eqb_spec md 0); cbn in Hb; lia.
Qed.
Lemma low16_32 x : low 16 (low 32 x) = low 16 x.
Proof. unfold low. change (2 ^ 32) with (2 ^ 16 * 65536). change (2 ^ 16) with 65536. lia. Qed.
Lemma wrap16_low x y d : x = y + d -> low 16 (wrap 32 (y + wrap 16 d)) = low 16 x.
Proof. intros ->. change wrap with low. rewrite low16_32. unfold low. change (2 ^ 16) with 65536. lia. Qed.
Definition ea32_raw (md m : Z) (a : arch) (t : list Z) (x : Z) : Z :=
  if m =? 4 then low 32 x else if md =? 0 then x
  else match disp32 md t with Some (d, _) => wrap 32 (reg 32 m a + wrap 16 d) | None => 0 end.
(** Offset delivered with 32-bit addressing: right modulo 65536, and right when the displacement is
    not negative and at most 65535. *)
Lemma get_mmm32_gen a p off g n l b t x r : flat E base a -> wf_regs a -> pfx_ok p -> p_as p = true ->
  0 <= b < 256 -> b / 64 <> 3 -> code_from a off t ->
  snd (ea32 (b / 64) (b mod 8) a t) = Some (x, r) -> sib_ok (b / 64) (b mod 8) t ->
  let o := ea32_raw (b / 64) (b mod 8) a t x in get_mmm E (modrm_of b) (mkSt a (dec_of p off) g n l) =
  Ok (sreg (ea_sreg_m p (if b / 64 =? 0 then 0 else 1) (b mod 8)) a, o)
     (mkSt a (dec_of p (off + (blen t - blen r))) g n l) /\ low 16 o = low 16 x /\ (disp32_ok (b / 64) (b mod 8) t -> o = low 32 x).
Proof.
  intros F W Hp Ha Hb Hmd C He S4. cbv zeta. unfold get_mmm, ea32_raw. msteps. cbn [d_addr dec_of]. rewrite Ha.
  unfold modrm_of. cbn [m_mod m_mmm].
  assert (Hm : 0 <= b mod 8 < 8) by lia. assert (Hd : 0 <= b / 64 < 3) by lia.
  unfold ea32 in He. revert He S4 Hm. generalize (b mod 8). intros m He S4 Hm. unfold sib_ok in S4.
  destruct (Z.eqb_spec m 4) as [H4|H4].
  { subst m. destruct (S4 eq_refl) as [Hmd0 Hsib]. rewrite Hmd0 in *. cbn [Z.eqb andb] in *.
    destruct t as [|sib u]; [discriminate|]. pose proof (code_byte_range E base a off sib u F W C) as Hsr.
    destruct (Z.eqb_spec (sib mod 8) 5) as [H5|H5]; cbn [snd] in He.
    - destruct (Hsib H5) as (r' & Hdw). rewrite Hdw in He. cbn [add_disp] in He. injection He as <- <-.
      unfold dword in Hdw. destruct u as [|b0 [|b1 [|b2 [|b3 u]]]]; try discriminate. injection Hdw as _ ->.
      erewrite dofunc32_sib5 by eauto. rewrite Z.add_0_r. rewrite !blen_cons.
      split; [do 3 f_equal; lia|]. split; [apply low16_32|auto].
    - unfold disp32 in He. cbn [Z.eqb add_disp] in He. injection He as <- <-.
      erewrite dofunc32_sib by eauto. rewrite Z.add_0_r. rewrite !blen_cons.
      split; [do 3 f_equal; lia|]. split; [apply low16_32|auto]. }
  assert (b / 64 = 0 \/ b / 64 = 1 \/ b / 64 = 2) as Hc by lia. unfold disp32_ok.
  destruct Hc as [Hc | [Hc | Hc]]; rewrite Hc in *; cbn [Z.eqb Pos.eqb andb] in *; unfold disp32 in *; cbn [Z.eqb Pos.eqb] in *.
  - destruct (Z.eqb_spec m 5) as [H5|H5]; cbn [snd] in He; [subst m|].
    + unfold dword in He. destruct t as [|b0 [|b1 [|b2 [|b3 u]]]]; try discriminate. injection He as <- <-.
      pose proof (code_from_cons _ _ _ _ C) as [_ C1]. pose proof (code_from_cons _ _ _ _ C1) as [_ C2]. pose proof (code_from_cons _ _ _ _ C2) as [_ C3].
      pose proof (code_byte_range E base a _ _ _ F W C). pose proof (code_byte_range E base a _ _ _ F W C1).
      pose proof (code_byte_range E base a _ _ _ F W C2). pose proof (code_byte_range E base a _ _ _ F W C3).
      erewrite dofunc32_disp by eauto. rewrite !blen_cons.
      split; [do 3 f_equal; lia|]. split; [reflexivity|]. intros _. unfold low. rewrite Z.mod_small by lia. reflexivity.
    + cbn [add_disp] in He. injection He as <- <-.
      pose proof (dofunc32_reg a p off g n l m true 0 Hp Hm H4 (fun _ => H5)) as H. cbv iota in H. rewrite H.
      pose proof (reg32_range m a Hm) as Hr. unfold inrange in Hr.
      split; [do 3 f_equal; lia|]. rewrite Z.add_0_r. split; [reflexivity|]. intros _. unfold low. rewrite Z.mod_small by lia. reflexivity.
  - destruct t as [|d u]; [discriminate|]. cbn [snd add_disp] in He. injection He as <- <-.
    pose proof (code_byte_range E base a _ _ _ F W C) as Hdr.
    unfold fetch8s. rewrite st_bind. erewrite bind_ok by (eapply fetch8_code; eauto). msteps.
    cbn [d_ipoff dec_of]. change (dd_ipoff (off + 1) (dec_of p off)) with (dec_of p (off + 1)).
    pose proof (dofunc32_reg a p (off + 1) g n l m false (wrap 16 (sgn 8 d)) Hp Hm H4 ltac:(discriminate)) as H. cbv iota in H. rewrite H.
    rewrite <- signed_sgn by (unfold inrange; lia). rewrite blen_cons. split; [do 3 f_equal; lia|]. split; [apply wrap16_low; reflexivity|].
    intros Hd0. specialize (Hd0 H4). rewrite (wrap_small 16) by (unfold inrange; lia). reflexivity.
  - unfold dword in *. destruct t as [|b0 [|b1 [|b2 [|b3 u]]]]; try discriminate. cbn [snd add_disp] in He. injection He as <- <-.
    unfold fetch32. erewrite bind_ok by (eapply fetch32_code; eauto). msteps.
    cbn [d_ipoff dec_of]. change (dd_ipoff (off + 4) (dec_of p off)) with (dec_of p (off + 4)).
    match goal with |- context [dofunc32 _ _ _ ?d _] => pose proof (dofunc32_reg a p (off + 4) g n l m false d Hp Hm H4 ltac:(discriminate)) as H end. cbv iota in H. rewrite H.
    rewrite !blen_cons. split; [do 3 f_equal; lia|]. split; [apply wrap16_low; reflexivity|].
    intros Hd0. specialize (Hd0 H4). rewrite (wrap_small 16) by (unfold inrange; lia). reflexivity.
Qed.
Lemma get_mmm32_ok a p off g n l b t x r : flat E base a -> wf_regs a -> pfx_ok p -> p_as p = true ->
  0 <= b < 256 -> b / 64 <> 3 -> code_from a off t ->
  snd (ea32 (b / 64) (b mod 8) a t) = Some (x, r) -> ea32_supported p (b / 64) (b mod 8) a t ->
  get_mmm E (modrm_of b) (mkSt a (dec_of p off) g n l) =
  Ok (sreg (match p_seg p with Some n => n | None => if fst (ea32 (b / 64) (b mod 8) a t) then 2 else 3 end) a, low 32 x)
     (mkSt a (dec_of p (off + (blen t - blen r))) g n l).
Proof.
  intros F W Hp Ha Hb Hmd C He Hs.
  assert (Hm : 0 <= b mod 8 < 8) by lia. assert (Hd : 0 <= b / 64 < 3) by lia.
  rewrite <- (seg32_ok p (b / 64) (b mod 8) a t Hd Hm Hs). destruct Hs as (S4 & Sd & _).
  destruct (get_mmm32_gen a p off g n l b t x r F W Hp Ha Hb Hmd C He S4) as (Hg & _ & Ho).
  rewrite Hg, (Ho Sd). reflexivity.
Qed.

(** Segment and offset of a supported memory operand. *)
Lemma get_mmm_rm a p off g n l b t rg sg o rest : flat E base a -> wf_regs a -> pfx_ok p ->
  0 <= b < 256 -> b / 64 <> 3 -> code_from a off t -> parse_rm p a (b :: t) = Some (rg, RMem sg o, rest) ->
  ea_supported p a (b :: t) ->
  get_mmm E (modrm_of b) (mkSt a (dec_of p off) g n l) = Ok (sg, o) (mkSt a (dec_of p (off + (blen t - blen rest))) g n l).
Proof.
  intros F W Hp Hb H3 C Hr Hs. cbn [parse_rm] in Hr. replace (b / 64 =? 3) with false in Hr by lia.
  destruct (p_as p) eqn:Ha.
  - cbn [ea_supported] in Hs. specialize (Hs H3). rewrite Ha in Hs.
    destruct (snd (ea32 (b / 64) (b mod 8) a t)) as [[x r']|] eqn:He; [|discriminate].
    destruct (low 32 x <? 65536); [|discriminate]. injection Hr as <- <- <- <-.
    eapply get_mmm32_ok; eauto.
  - destruct (disp (b / 64) (b mod 8) t) as [[d r']|] eqn:Hd; [|discriminate].
    injection Hr as <- <- <- <-.
    destruct (ea_supported_ok p a b t d r' Ha Hs Hb H3 Hd) as (Hseg & Hofs & Hrange).
    pose proof (get_mmm_ok a p off g n l b t d r' F W Hp Ha Hb H3 C Hd) as Hg.
    rewrite Hseg, Hofs in Hg. exact Hg.
Qed.

(** ParseModRM / ParseModRMX deliver the specified operand. *)
Lemma decode_ok (wide : bool) a p off g n l b t rg r rest : flat E base a -> wf_regs a -> pfx_ok p ->
  0 <= b < 256 ->
  code_from a off t -> parse_rm p a (b :: t) = Some (rg, r, rest) -> ea_supported p a (b :: t) ->
  (wide = true -> not_block_end 16 r) ->
  (if wide then decode_modmx E (modrm_of b) else decode_modm E (modrm_of b))
     (mkSt a (dec_of p off) g n l) =
  Ok (ptr_of base (if wide then 16 else 8) r)
     (mkSt a (dec_of p (off + (blen t - blen rest))) g n l) /\
  rg = (b / 8) mod 8.
Proof.
  intros F W Hp Hb C Hr Hs Hn. pose proof (parse_rm_rg _ _ _ _ _ _ _ Hr) as Hrg. split; [|exact Hrg].
  pose proof (parse_rm_ok _ _ _ _ _ _ W Hr) as [Hrok _].
  unfold decode_modm, decode_modmx.
  replace (m_mod (modrm_of b)) with (b / 64) by reflexivity.
  destruct (Z.eqb_spec (b / 64) 3) as [H3|H3].
  { cbn [parse_rm] in Hr. rewrite H3 in Hr. injection Hr as _ <- <-.
    replace (off + (blen t - blen t)) with off by lia.
    destruct wide; reflexivity. }
  destruct r as [k|sg o].
  { exfalso. cbn [parse_rm] in Hr. replace (b / 64 =? 3) with false in Hr by lia.
    destruct (p_as p); [destruct (snd (ea32 (b / 64) (b mod 8) a t)) as [[? ?]|]; [destruct (_ <? _)|]; discriminate|].
    destruct (disp _ _ _) as [[? ?]|]; discriminate. }
  pose proof (get_mmm_rm a p off g n l b t rg sg o rest F W Hp Hb H3 C Hr Hs) as Hg.
  destruct Hrok as [Hsr Hrange].
  pose proof (lin_bound sg o Hsr Hrange) as Hl.
  destruct wide.
  - erewrite bind_ok by exact Hg. cbn [fst snd].
    assert (Hw : wrap 32 (sg * 16 + o) = lin sg o).
    { unfold lin in *. rewrite wrap_small by (unfold inrange; lia). lia. }
    rewrite Hw. specialize (Hn eq_refl). cbn [not_block_end] in Hn.
    specialize (Hn ltac:(lia)). replace (lin sg o mod 4096 =? 4095) with false by lia.
    erewrite bind_ok by (apply getptr_flat with (base := base); auto; unfold inrange in *; lia).
    reflexivity.
  - erewrite bind_ok by exact Hg. cbn [fst snd].
    erewrite bind_ok by (apply getptr_flat with (base := base); auto; unfold inrange in *; lia).
    reflexivity.
Qed.

Lemma ptr_of_16 w r : w = 16 \/ w = 32 -> ptr_of base 16 r = ptr_of base w r.
Proof. intros [-> | ->]; destruct r; reflexivity. Qed.

Lemma parse8_ok a p off g n l bs rg r rest : flat E base a -> wf_regs a -> pfx_ok p ->
  code_from a off bs -> parse_rm p a bs = Some (rg, r, rest) -> ea_supported p a bs ->
  parse_modrm E (mkSt a (dec_of p off) g n l) =
  Ok (ptr_of base 8 (RReg rg), ptr_of base 8 r)
     (mkSt a (dec_of p (off + (blen bs - blen rest))) g n l).
Proof.
  intros F W Hp C Hr Hs. destruct bs as [|b t]; [discriminate|].
  unfold parse_modrm. erewrite bind_ok by (eapply get_modrm_code; eauto).
  pose proof (code_byte_range E base a off b t F W C) as Hb.
  destruct (decode_ok false a p (off + 1) g n l b t rg r rest F W Hp Hb
              (proj2 (code_from_cons _ _ _ _ C)) Hr Hs ltac:(discriminate)) as [H1 H2].
  erewrite bind_ok by exact H1. unfold ret, modrm_of. cbn [m_rrr].
  rewrite <- H2, blen_cons. do 3 f_equal. lia.
Qed.
Lemma parsex_ok a p off g n l bs rg r rest w : flat E base a -> wf_regs a -> pfx_ok p ->
  code_from a off bs -> parse_rm p a bs = Some (rg, r, rest) -> ea_supported p a bs ->
  not_block_end 16 r -> w = 16 \/ w = 32 ->
  parse_modrmx E (mkSt a (dec_of p off) g n l) =
  Ok (ptr_of base w (RReg rg), ptr_of base w r)
     (mkSt a (dec_of p (off + (blen bs - blen rest))) g n l).
Proof.
  intros F W Hp C Hr Hs Hn Hw. destruct bs as [|b t]; [discriminate|].
  unfold parse_modrmx. erewrite bind_ok by (eapply get_modrm_code; eauto).
  pose proof (code_byte_range E base a off b t F W C) as Hb.
  destruct (decode_ok true a p (off + 1) g n l b t rg r rest F W Hp Hb
              (proj2 (code_from_cons _ _ _ _ C)) Hr Hs (fun _ => Hn)) as [H1 H2].
  erewrite bind_ok by exact H1. unfold ret, modrm_of. cbn [m_rrr].
  rewrite <- H2, blen_cons. rewrite <- !(ptr_of_16 w) by auto. do 3 f_equal. lia.
Qed.

End WithEnv.
