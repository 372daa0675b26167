(** Proofs: exactly when RME_RunOne is undefined. *)
From Verif Require Import Base Cpu Alu Ops Machine Spec SpecOps SpecOps2 SpecSys SpecRun SpecStop SpecEa SpecUb PBase PMem PRun PFrame PAlu PExec PIAlu PStep PIInt PKeep PKeep2 PKeep3 PTop PTop2 PTop3 PIMov PIStack PStop PStop2 PEa PEa2 PEa3 PEa4 PUb PUb2 PUb3.

Section WithEnv.
Context (E : env) (base : Z).

Lemma tail_sub bs wide t : (forall b, In b bs -> 0 <= b < 256) -> has_modrm bs = Some (wide, t) -> exists v, bs = v ++ t /\ (blen v = 1 \/ blen v = 2).
Proof.
  intros Hb Hm. destruct bs as [|op q]; [discriminate|]. destruct (Z.eq_dec op 15) as [->|H15].
  - destruct q as [|op2 t2]; [discriminate|]. exists [15; op2]. split; [|right; reflexivity]. cbn [has_modrm] in Hm. destruct (_ || _) in Hm; [injection Hm as _ <-; reflexivity|]. destruct (_ || _) in Hm; [injection Hm as _ <-; reflexivity|discriminate].
  - exists [op]. split; [|left; reflexivity]. destruct wide.
    + destruct (wide_ops op q t (Hb op (or_introl eq_refl)) H15 Hm) as [-> _]. reflexivity.
    + destruct (narrow_ops op q t (Hb op (or_introl eq_refl)) H15 Hm) as [-> _]. reflexivity.
Qed.
Lemma may_ub_modrm bs r : may_ub bs r -> has_modrm bs <> None.
Proof.
  destruct bs as [|b t]; [destruct r; cbn; tauto|]. destruct r; cbn [may_ub]; auto; try contradiction.
  - intros [H|[-> H]].
    + cbn [In] in H. repeat (destruct H as [<-|H]; [discriminate|]). contradiction.
    + destruct t as [|b2 t]; [contradiction|]. cbn [In] in H. repeat (destruct H as [<-|H]; [discriminate|]). contradiction.
  - intros [H|[-> H]].
    + cbn [In] in H. repeat (destruct H as [<-|H]; [discriminate|]). contradiction.
    + destruct t as [|b2 t]; [contradiction|]. subst b2. discriminate.
  - intros ->. discriminate.
  - cbn [In]. intros H. repeat (destruct H as [<-|H]; [discriminate|]). contradiction.
Qed.

(** Far pointers and LEA. *)
Lemma real_parts_seg a p off g n l t rg x rest : flat E base a -> wf_regs a -> pfx_ok p -> code_from a off t -> real_address p a t = Some (rg, x, rest) ->
  exists b sg o, b / 64 <> 3 /\ inrange 16 sg /\
    get_modrm E (mkSt a (dec_of p off) g n l) = Ok (modrm_of b) (mkSt a (dec_of p (off + 1)) g n l) /\
    get_mmm E (modrm_of b) (mkSt a (dec_of p (off + 1)) g n l) = Ok (sg, o) (mkSt a (dec_of p (off + (blen t - blen rest))) g n l).
Proof.
  intros F W Hp C Hr. destruct t as [|b u]; [discriminate|]. pose proof (code_byte_range E base a off b u F W C) as Hb. cbn [real_address] in Hr.
  destruct (Z.eqb_spec (b / 64) 3) as [|H3]; [discriminate|].
  destruct (real_offset p (b / 64) (b mod 8) a u) as [[o r]|] eqn:Ho; [|discriminate]. injection Hr as <- <- <-.
  pose proof (get_mmm_real E base a p (off + 1) g n l b u o r F W Hp Hb H3 (proj2 (code_from_cons _ _ _ _ C)) Ho) as G.
  eexists b, _, o. split; [exact H3|]. split; [|split; [eapply get_modrm_code; eauto|rewrite G; do 3 f_equal; rewrite blen_cons; lia]].
  apply (proj2 (J_of E base a (dec_of p 0) 0 0 false F W)). unfold real_sreg. unfold pfx_ok in Hp. destruct (p_seg p); [lia|]. destruct (_ && _); lia.
Qed.

Lemma far_never s pre p bs t wide op k m : fetched E base s pre p bs -> has_modrm bs = Some (wide, t) -> invalid_form bs = false -> unsupported_form p bs = false ->
  no_pointer bs = true -> 6 <= blen t -> dispatch bs = Some (op, k, m) ->
  ubres (exec1 E op k (mkSt (ar s) (dec_of p (blen pre + m)) (dbg s) (icount s + 1) (lastnull s))) = None.
Proof.
  intros Hf Hm Hi Hu Hn Hlen Hd. pose proof Hf as (R & Hp & C). destruct R as [F W PC Hc].
  apply prefixes_ok in Hp. apply code_from_0 in C. apply code_from_app in C. rewrite Z.add_0_l in C.
  pose proof (code_bytes E base _ _ _ _ Hf) as Hb.
  assert (HJ : forall d g n l, J E base (mkSt (ar s) d g n l)) by (intros; apply J_of; assumption).
  destruct t as [|mb tl]; [unfold blen in Hlen; cbn in Hlen; lia|].
  assert (Hreal : forall off, code_from (ar s) off (mb :: tl) -> mb / 64 <> 3 -> exists b sg o S2, b / 64 <> 3 /\ inrange 16 sg /\ J E base S2 /\
    get_modrm E (mkSt (ar s) (dec_of p off) (dbg s) (icount s + 1) (lastnull s)) = Ok (modrm_of b) (mkSt (ar s) (dec_of p (off + 1)) (dbg s) (icount s + 1) (lastnull s)) /\
    get_mmm E (modrm_of b) (mkSt (ar s) (dec_of p (off + 1)) (dbg s) (icount s + 1) (lastnull s)) = Ok (sg, o) S2).
  { intros off C2 H3. rewrite blen_cons in Hlen. destruct (real_offset_ex p (mb / 64) (mb mod 8) (ar s) tl ltac:(lia)) as (o & r & Ho).
    assert (Hr : exists x, real_address p (ar s) (mb :: tl) = Some ((mb / 8) mod 8, x, r)).
    { cbn [real_address]. replace (mb / 64 =? 3) with false by lia. rewrite Ho. eauto. }
    destruct Hr as (x & Hr). destruct (real_parts_seg (ar s) p off (dbg s) (icount s + 1) (lastnull s) _ _ _ _ F W Hp C2 Hr) as (b & sg & o' & K1 & K2 & K3 & K4).
    exists b, sg, o', (mkSt (ar s) (dec_of p (off + (blen (mb :: tl) - blen r))) (dbg s) (icount s + 1) (lastnull s)). auto 6. }
  destruct bs as [|op1 q]; [discriminate|]. destruct (Z.eq_dec op1 15) as [->|H15].
  - destruct q as [|op2 t2]; [discriminate|].
    assert (Ht : t2 = mb :: tl). { cbn [has_modrm] in Hm. destruct (_ || _) in Hm; [injection Hm as _ <-; reflexivity|]. destruct (_ || _) in Hm; [injection Hm as _ <-; reflexivity|discriminate]. }
    subst t2. assert (C2 : code_from (ar s) (blen pre + 2) (mb :: tl)).
    { apply code_from_cons in C. destruct C as [_ C]. apply code_from_cons in C. destruct C as [_ C]. replace (blen pre + 2) with (blen pre + 1 + 1) by lia. exact C. }
    cbn [no_pointer] in Hn. assert (K : op2 = 178 \/ op2 = 180 \/ op2 = 181) by lia.
    assert (H3 : mb / 64 <> 3).
    { intros H3. destruct K as [->|[->| ->]]; cbn [invalid_form mod_field] in Hi; rewrite H3 in Hi; discriminate Hi. }
    destruct (Hreal _ C2 H3) as (b & sg & o & S2 & B3 & Hsg & J2 & G1 & G2).
    assert (G1' : get_modrm_nocheck E (mkSt (ar s) (dec_of p (blen pre + 2)) (dbg s) (icount s + 1) (lastnull s)) = Ok (modrm_of b) (mkSt (ar s) (dec_of p (blen pre + 2 + 1)) (dbg s) (icount s + 1) (lastnull s))).
    { unfold get_modrm_nocheck. rewrite G1. reflexivity. }
    assert (L : forall c, 0 <= c < 6 -> ubres (x_lxs E c (mkSt (ar s) (dec_of p (blen pre + 2)) (dbg s) (icount s + 1) (lastnull s))) = None).
    { intros c Hcc. unfold x_lxs. erewrite bind_ok by exact G1'. replace (m_mod (modrm_of b)) with (b / 64) by reflexivity. replace (b / 64 =? 3) with false by lia.
      erewrite bind_ok by exact G2. apply ubres_safe with (Q := fun _ _ => True). cbn [fst snd]. apply safe_bind, safe_opw. intros w Hw.
      apply safe_bind. apply (safe_rd E base); [assumption|assumption|assumption|]. intros v. apply safe_bind. apply (safe_store E base); [assumption|assumption|exact I|]. intros s' J' _.
      apply safe_bind. apply (safe_rd E base); [auto with width|assumption|assumption|]. intros v'. apply safe_setseg; [assumption|]. intros. exact I. }
    destruct K as [->|[->| ->]]; cbn in Hd; injection Hd as <- <- <-; cbn [exec1]; apply L; unfold S_SS, S_FS, S_GS; lia.
  - assert (Ht : q = mb :: tl).
    { destruct wide; [destruct (wide_ops op1 q _ (Hb op1 (or_introl eq_refl)) H15 Hm) as [<- _]|destruct (narrow_ops op1 q _ (Hb op1 (or_introl eq_refl)) H15 Hm) as [<- _]]; reflexivity. }
    subst q. assert (C2 : code_from (ar s) (blen pre + 1) (mb :: tl)) by (apply code_from_cons in C; apply C).
    assert (K : op1 = 130 \/ op1 = 141 \/ op1 = 196 \/ op1 = 197 \/ (op1 = 255 /\ (reg_field (mb :: tl) = 3 \/ reg_field (mb :: tl) = 5))).
    { revert Hn. clear - H15. intros Hn. assert (X : no_pointer (op1 :: mb :: tl) = (op1 =? 130) || (op1 =? 141) || (op1 =? 196) || (op1 =? 197) || ((op1 =? 255) && ((reg_field (mb :: tl) =? 3) || (reg_field (mb :: tl) =? 5)))).
      { unfold no_pointer. destruct op1 as [|r|r]; [reflexivity| |reflexivity]. repeat (destruct r as [r|r|]; try reflexivity; try (exfalso; apply H15; reflexivity)). }
      rewrite X in Hn. lia. }
    assert (H3 : op1 <> 130 -> mb / 64 <> 3).
    { intros H130 H3. destruct K as [->|[->|[->|[->|[-> [K|K]]]]]]; [congruence| | | | |]; cbn [invalid_form mod_field] in Hi; rewrite ?K, H3 in Hi; discriminate Hi. }
    destruct K as [->|K]; [discriminate Hd|].
    assert (Hne : op1 <> 130) by (intros ->; destruct K as [K|[K|[K|[K _]]]]; discriminate K). specialize (H3 Hne).
    destruct (Hreal _ C2 H3) as (b & sg & o & S2 & B3 & Hsg & J2 & G1 & G2).
    assert (G1' : get_modrm_nocheck E (mkSt (ar s) (dec_of p (blen pre + 1)) (dbg s) (icount s + 1) (lastnull s)) = Ok (modrm_of b) (mkSt (ar s) (dec_of p (blen pre + 1 + 1)) (dbg s) (icount s + 1) (lastnull s))).
    { unfold get_modrm_nocheck. rewrite G1. reflexivity. }
    assert (L : forall c, 0 <= c < 6 -> ubres (x_lxs E c (mkSt (ar s) (dec_of p (blen pre + 1)) (dbg s) (icount s + 1) (lastnull s))) = None).
    { intros c Hcc. unfold x_lxs. erewrite bind_ok by exact G1'. replace (m_mod (modrm_of b)) with (b / 64) by reflexivity. replace (b / 64 =? 3) with false by lia.
      erewrite bind_ok by exact G2. apply ubres_safe with (Q := fun _ _ => True). cbn [fst snd]. apply safe_bind, safe_opw. intros w Hw.
      apply safe_bind. apply (safe_rd E base); [assumption|assumption|assumption|]. intros v. apply safe_bind. apply (safe_store E base); [assumption|assumption|exact I|]. intros s' J' _.
      apply safe_bind. apply (safe_rd E base); [auto with width|assumption|assumption|]. intros v'. apply safe_setseg; [assumption|]. intros. exact I. }
    destruct K as [->|[->|[->|[-> K]]]].
    + cbn in Hd. injection Hd as <- <- <-. cbn [exec1]. unfold x_lea. erewrite bind_ok by exact G1. replace (m_mod (modrm_of b)) with (b / 64) by reflexivity. replace (b / 64 =? 3) with false by lia.
      erewrite bind_ok by exact G2. apply ubres_safe with (Q := fun _ _ => True). cbn [fst snd]. apply safe_bind, safe_opw. intros w Hw.
      apply (safe_store E base); [assumption|assumption|exact I|]. intros. exact I.
    + cbn in Hd. injection Hd as <- <- <-. cbn [exec1]. apply L. unfold S_ES. lia.
    + cbn in Hd. injection Hd as <- <- <-. cbn [exec1]. apply L. unfold S_DS. lia.
    + assert (Hos : p_os p = false). { destruct (p_os p) eqn:Hos'; [|reflexivity]. cbn [unsupported_form Z.eqb Pos.eqb mem_z existsb orb andb] in Hu. rewrite Hos' in Hu. destruct K as [K|K]; rewrite K in Hu; discriminate Hu. }
      assert (PF : forall Y (f : Z * Z -> M Y) Q, (forall v s', J E base s' -> safe (f v) Q s') -> safe (bind (parse_farptr E) f) Q (mkSt (ar s) (dec_of p (blen pre + 1)) (dbg s) (icount s + 1) (lastnull s))).
      { intros Y f Q HQ. apply safe_bind. unfold parse_farptr. unfold safe. erewrite bind_ok by exact G1. replace (m_mod (modrm_of b)) with (b / 64) by reflexivity. replace (b / 64 =? 3) with false by lia.
        erewrite bind_ok by exact G2. cbn [fst snd]. change (safe (bind (rd E 16 sg o) (fun ip => bind (rd E 16 sg (o + 2)) (fun cs => ret (cs, ip)))) (fun x s' => safe (f x) Q s') S2).
        apply safe_bind. apply (safe_rd E base); [auto with width|assumption|assumption|]. intros v. apply safe_bind. apply (safe_rd E base); [auto with width|assumption|assumption|]. intros v'. apply safe_ret. apply HQ, J2. }
      assert (Hdd : op = OUnaryMX /\ k = (mb / 8) mod 8 /\ m = 1). { cbn in Hd. injection Hd as <- <- <-. auto. }
      destruct Hdd as (-> & -> & ->). cbn [exec1]. cbn [reg_field] in K. unfold x_unary_mx. rewrite st_getD. cbn [dec_of d_op]. rewrite Hos.
      destruct K as [K|K]; rewrite K; apply ubres_safe with (Q := fun _ _ => True); apply PF; intros v s' J'.
      * apply safe_bind. apply (safe_push E base); [assumption| |].
        { intros s1 R1 J1 H1. apply safe_gets, H1. }
        intros s1 J1. apply safe_bind. apply (safe_push E base); [assumption| |].
        { intros s2 R2 J2' H2. unfold next_ip. apply safe_bind, safe_gets, safe_bind, safe_gets, safe_ret, H2. }
        intros s2 J2'. exact I.
      * exact I.
Qed.

Lemma ub_may s pre p bs r : polite E -> fetched E base s pre p bs -> wf_state s -> 0 <= cpu (ar s) <= 2 -> opcode_read bs -> run_one E s = UB r -> may_ub bs r.
Proof.
  intros Hp Hf W Hc Hr R.
  assert (Hu : ~ undefined_opcode bs). { intros U. destruct (undefined_stops E base s pre p bs Hf Hr U) as (x & Rx & _). congruence. }
  pose proof (instr_general E base s pre p bs Hp Hf W Hc Hr Hu) as X. rewrite R in X. exact X.
Qed.
Lemma sreg_ub s pre p t : fetched E base s pre p (142 :: t) -> p_os p = false -> t <> [] -> 6 <= reg_field t -> run_one E s = UB UbSegReg.
Proof.
  intros Hf Ho Ht H6. destruct t as [|mb tl]; [congruence|]. pose proof Hf as (R & Hp & C). destruct R as [F W PC Hc].
  apply prefixes_ok in Hp. apply code_from_0 in C. apply code_from_app in C. rewrite Z.add_0_l in C.
  assert (C2 : code_from (ar s) (blen pre + 1) (mb :: tl)) by (apply code_from_cons in C; apply C).
  eapply run_ub; [exact Hf|reflexivity|]. cbn [exec1 e_op]. unfold x_mov_sr. rewrite st_getD. cbn [dec_of d_op]. rewrite Ho.
  assert (P4 : forall X (f : Z -> M X), bind (peek8 E) f (mkSt (ar s) (dec_of p (blen pre + 1)) (dbg s) (icount s + 1) (lastnull s)) =
      f mb (mkSt (ar s) (dec_of p (blen pre + 1)) (dbg s) (icount s + 1) (lastnull s))).
  { intros X f. unfold peek8. rewrite st_bind. erewrite bind_ok by (eapply fetch8_code; eauto). rewrite st_bind, st_upd_dc, st_ret.
    f_equal. unfold dec_of, dd_ipoff. cbn. do 2 f_equal. lia. }
  rewrite P4. cbn [reg_field] in H6. assert (Hr : 0 <= (mb / 8) mod 8 < 8) by lia. unfold bind, chkseg. cbn [ar].
  assert (K : (mb / 8) mod 8 = 6 \/ (mb / 8) mod 8 = 7) by lia. destruct K as [K|K]; rewrite K; reflexivity.
Qed.

Theorem ub_exact s pre p bs r : polite E -> fetched E base s pre p bs -> wf_state s -> 0 <= cpu (ar s) <= 2 -> opcode_read bs -> 12 <= blen bs -> ~ at_map_end p (ar s) bs ->
  run_one E s = UB r <-> ub_of p (ar s) bs = Some r.
Proof.
  intros Hpol Hf Hwf Hcpu Hor Hlen Hend.
  pose proof (code_bytes E base _ _ _ _ Hf) as Hb. unfold ub_of. unfold at_map_end in Hend.
  destruct (has_modrm bs) as [[wide t]|] eqn:Hm.
  2:{ split; [|discriminate]. intros H. exfalso. apply (may_ub_modrm bs r); [|exact Hm]. eapply ub_may; eauto. }
  destruct (tail_sub bs wide t Hb Hm) as (v & Hv & Hvl).
  assert (Hlt : 10 <= blen t) by (rewrite Hv, blen_app in Hlen; lia).
  assert (Htn : t <> []) by (intros ->; unfold blen in Hlt; cbn in Hlt; lia).
  assert (Hmr : modrm_read bs) by (unfold modrm_read; rewrite Hm; destruct t; [congruence|exact I]).
  assert (Hst : forall c, stops E s c -> run_one E s = UB r <-> None = Some r).
  { intros c (x & Rx & _). rewrite Rx. split; discriminate. }
  assert (Hub : forall u, run_one E s = UB u -> run_one E s = UB r <-> Some u = Some r).
  { intros u ->. split; intros [= ->]; reflexivity. }
  destruct (invalid_form bs) eqn:Hi; [cbn [orb]; eapply Hst, invalid_stops; eauto|].
  destruct (unsupported_form p bs) eqn:Hu; [cbn [orb]; eapply Hst, unsupported_stops; eauto|].
  destruct (imul_wide p bs) eqn:Hiw; [cbn [orb]; eapply Hst, imul_wide_stops; eauto|]. cbn [orb].
  destruct (match bs with op :: _ => (op =? 142) && (6 <=? reg_field t) | [] => false end) eqn:H142.
  { destruct bs as [|op q]; [discriminate|]. apply andb_true_iff in H142. destruct H142 as [H1 H6]. apply Z.eqb_eq in H1. subst op.
    assert (q = t) as ->. { cbn in Hm. injection Hm as _ <-. reflexivity. }
    apply Hub. eapply sreg_ub; eauto; [|lia]. cbn in Hu. destruct (p_os p); [discriminate|reflexivity]. }
  assert (Hs : sreg_exists bs).
  { destruct bs as [|op q]; [exact I|]. intros ->. assert (q = t) as -> by (cbn in Hm; injection Hm as _ <-; reflexivity). cbn in H142. lia. }
  destruct (no_pointer bs) eqn:Hn.
  { split; [|discriminate]. intros HR. exfalso. destruct (dispatch bs) as [[[o k] m]|] eqn:Hd.
    - pose proof (run_ub_back E base s pre p bs r o k m Hpol Hf Hwf Hcpu Hor Hd HR) as HX.
      pose proof (far_never s pre p bs t wide o k m Hf Hm Hi Hu Hn ltac:(lia) Hd) as HN. rewrite HX in HN. discriminate HN.
    - apply (dispatch_none bs Hor Hb) in Hd. destruct (undefined_stops E base s pre p bs Hf Hor Hd) as (x & Rx & _). congruence. }
  destruct (real_rm_ex p (ar s) t ltac:(lia)) as (rg & o & rest & Hr). rewrite Hr in Hend |- *.
  assert (Hrest : 4 <= blen rest). { destruct (real_rm_split _ _ _ _ _ _ Hr) as (u & Hu' & L). rewrite Hu', blen_app in Hlt. lia. }
  assert (Hin : good wide o -> run_one E s = UB r <-> operation_ub p (ar s) bs rg o rest = Some r).
  { intros Hg. assert (G : goal_of E s pre p bs rg o rest).
    { destruct wide; [eapply wide_in|eapply narrow_in]; eauto. }
    destruct G as (op & k & m & Hd & HX). rewrite <- HX. split.
    - intros HR. rewrite (run_ub_back E base s pre p bs r op k m Hpol Hf Hwf Hcpu Hor Hd HR). reflexivity.
    - intros HR. eapply run_ub; [exact Hf|exact Hd|]. unfold ubres in HR. destruct (exec1 _ _ _ _); congruence. }
  destruct o as [n|x]; [apply Hin; exact I|].
  assert (Hra : real_address p (ar s) t = Some (rg, x, rest)).
  { destruct t as [|b u]; [discriminate|]. cbn [real_rm] in Hr. destruct (b / 64 =? 3); [discriminate|]. destruct (real_address p (ar s) (b :: u)) as [[[? ?] ?]|]; [injection Hr as <- <- <-; reflexivity|discriminate]. }
  assert (Hfi : far_indirect bs = false).
  { destruct bs as [|op q]; [reflexivity|]. unfold far_indirect. destruct (Z.eqb_spec op 255) as [->|]; [|reflexivity].
    cbn [no_pointer Z.eqb Pos.eqb orb andb] in Hn. unfold mem_z. cbn [existsb andb]. rewrite orb_false_r. exact Hn. }
  destruct (wide && (x mod 4096 =? 4095)) eqn:Hw.
  { apply andb_true_iff in Hw. destruct Hw as [-> Hx]. apply (Hst E_BADMEM).
    pose proof (wide_far E base s pre p bs t rg x rest Hf Hm Hra ltac:(left; lia) Hi Hu Hiw Hfi Hs) as H. rewrite Hx in H. exact H. }
  destruct (Z.leb_spec map_size x) as [Hx|Hx].
  - apply Hub. destruct wide.
    + pose proof (wide_far E base s pre p bs t rg x rest Hf Hm Hra (or_intror Hx) Hi Hu Hiw Hfi Hs) as H. cbn [andb] in Hw. rewrite Hw in H. exact H.
    + apply (narrow_far E base s pre p bs t rg x rest Hf Hm Hra Hx Hn Hi). intros op q -> ->. discriminate Hn.
  - apply Hin. split; [lia|]. intros ->. cbn [andb] in Hw. lia.
Qed.
End WithEnv.
