(** The frame of RME_RunOne around one handler. *)
From Verif Require Import Base Cpu Alu Ops Machine Spec PBase PMem PRun.

Definition pcount (p : pfx) : Z :=
  (match p_seg p with Some _ => 1 | None => 0 end) + b2z (p_os p) + b2z (p_as p)
  + (if p_rep p =? 0 then 0 else 1).

Lemma seg_prefix_cases b k : seg_prefix b = Some k ->
  (b = 38 /\ k = 0) \/ (b = 46 /\ k = 1) \/ (b = 54 /\ k = 2) \/ (b = 62 /\ k = 3) \/
  (b = 100 /\ k = 4) \/ (b = 101 /\ k = 5).
Proof.
  intros H. unfold seg_prefix in H.
  destruct b as [|b|b]; try discriminate.
  do 7 (destruct b as [b|b|]; try discriminate; try (injection H as <-; lia)).
Qed.

(** Shape of an accepted prefix. *)
Lemma add_prefix_cases p b p' : add_prefix p b = Some p' ->
  (exists k, seg_prefix b = Some k /\ p_seg p = None /\ p' = mkPfx (Some k) (p_os p) (p_as p) (p_rep p)) \/
  (b = 102 /\ p_os p = false /\ p' = mkPfx (p_seg p) true (p_as p) (p_rep p)) \/
  (b = 103 /\ p_as p = false /\ p' = mkPfx (p_seg p) (p_os p) true (p_rep p)) \/
  ((b = 242 \/ b = 243) /\ p_rep p = 0 /\ p' = mkPfx (p_seg p) (p_os p) (p_as p) b).
Proof.
  unfold add_prefix. destruct (seg_prefix b) as [k|] eqn:Hs.
  - destruct (p_seg p) eqn:E1; [discriminate|]. intros [= <-]. left. exists k. auto.
  - destruct (Z.eqb_spec b 102); [destruct (p_os p) eqn:E2; [discriminate|]; intros [= <-]; auto|].
    destruct (Z.eqb_spec b 103); [destruct (p_as p) eqn:E3; [discriminate|]; intros [= <-]; auto 6|].
    destruct ((b =? 242) || (b =? 243)) eqn:E4; [|discriminate].
    destruct (Z.eqb_spec (p_rep p) 0) as [E5|E5]; [|discriminate]. intros [= <-].
    do 3 right. repeat split; auto. lia.
Qed.

Lemma add_prefix_count p b p' : add_prefix p b = Some p' -> pcount p' = pcount p + 1.
Proof.
  intros H. destruct (add_prefix_cases _ _ _ H)
    as [(k & _ & E1 & ->) | [(_ & E1 & ->) | [(_ & E1 & ->) | (E0 & E1 & ->)]]];
  unfold pcount; cbn; rewrite E1; cbn; try lia.
  replace (b =? 0) with false by lia. lia.
Qed.
Lemma pcount_bound p : 0 <= pcount p <= 4.
Proof.
  unfold pcount, b2z. destruct (p_seg p), (p_os p), (p_as p), (p_rep p =? 0); cbv iota; lia.
Qed.
Lemma prefixes_from_count pre p p' : prefixes_from p pre = Some p' -> pcount p' = pcount p + blen pre.
Proof.
  revert p. induction pre as [|b t IH]; intros p; cbn [prefixes_from].
  - intros [= <-]. unfold blen. cbn. lia.
  - destruct (add_prefix p b) as [q|] eqn:Hq; [|discriminate]. intros H.
    rewrite (IH _ H), (add_prefix_count _ _ _ Hq), blen_cons. lia.
Qed.
Lemma prefixes_length pre p : prefixes pre = Some p -> (length pre <= 4)%nat.
Proof.
  intros H. apply prefixes_from_count in H. change (pcount (mkPfx None false false 0)) with 0 in H. pose proof (pcount_bound p).
  unfold blen in H. lia.
Qed.
Lemma add_prefix_ok p b p' : add_prefix p b = Some p' -> pfx_ok p -> pfx_ok p'.
Proof.
  intros H Hp. destruct (add_prefix_cases _ _ _ H)
    as [(k & Hk & E1 & ->) | [(_ & E1 & ->) | [(_ & E1 & ->) | (E0 & E1 & ->)]]]; try exact Hp.
  cbn. apply seg_prefix_cases in Hk. lia.
Qed.
Lemma prefixes_ok pre p : prefixes pre = Some p -> pfx_ok p.
Proof.
  unfold prefixes.
  assert (Hg : forall pre q p, pfx_ok q -> prefixes_from q pre = Some p -> pfx_ok p).
  { clear. induction pre as [|b t IH]; intros q p Hq; cbn [prefixes_from].
    - intros [= <-]; exact Hq.
    - destruct (add_prefix q b) as [q'|] eqn:He; [|discriminate]. apply IH.
      eapply add_prefix_ok; eauto. }
  apply Hg. exact I.
Qed.

(** Dispatch of the opcode bytes: handler, parameter, number of opcode bytes. *)
Definition dispatch (bs : list Z) : option (opid * Z * Z) :=
  match bs with
  | [] => None
  | op :: t =>
    if op =? 241 then None
    else if op =? 15 then
      match t with
      | op2 :: _ => match ca_op0F op2 with Some e => Some (e_op e, e_arg e, 2) | None => None end
      | [] => None
      end
    else match ca_op op with
         | Some e => if e_names e
                     then match t with m :: _ => Some (e_op e, (m / 8) mod 8, 1) | [] => None end
                     else Some (e_op e, e_arg e, 1)
         | None => None
         end
  end.

Section WithEnv.
Context (E : env) (base : Z).

Lemma op_once_prefix a p b p' off g n l t : flat E base a -> wf_regs a ->
  code_from a off (b :: t) -> add_prefix p b = Some p' ->
  op_once E (mkSt a (dec_of p off) g n l) = Err E_CONTINUE (mkSt a (dec_of p' (off + 1)) g n l).
Proof.
  intros F W C H. unfold op_once. erewrite bind_ok by (eapply fetch8_code; eauto).
  cbn [d_ipoff dec_of].
  change (dd_ipoff (off + 1) (dec_of p off)) with (dec_of p (off + 1)).
  destruct (add_prefix_cases _ _ _ H)
    as [(k & Hk & E1 & ->) | [(-> & E1 & ->) | [(-> & E1 & ->) | (E0 & E1 & ->)]]].
  - apply seg_prefix_cases in Hk.
    repeat destruct Hk as [Hk|Hk]; destruct Hk as [-> ->];
    cbn -[dec_of]; unfold x_ovr_seg; msteps; cbn -[dec_of]; unfold dec_of; cbn; rewrite ?E1; reflexivity.
  - cbn -[dec_of]. unfold x_ovr_op; msteps; unfold dec_of; cbn; rewrite ?E1; reflexivity.
  - cbn -[dec_of]. unfold x_ovr_addr; msteps; unfold dec_of; cbn; rewrite ?E1; reflexivity.
  - destruct E0 as [-> | ->]; cbn -[dec_of]; unfold x_rep; msteps; unfold dec_of; cbn; rewrite ?E1; reflexivity.
Qed.

Lemma op_loop_prefixes a pre : forall p p' off g n l t fuel, flat E base a -> wf_regs a ->
  code_from a off (pre ++ t) -> prefixes_from p pre = Some p' ->
  op_loop E (length pre + fuel) (mkSt a (dec_of p off) g n l) =
  op_loop E fuel (mkSt a (dec_of p' (off + blen pre)) g n l).
Proof.
  induction pre as [|b pre IH]; intros p p' off g n l t fuel F W C H; cbn [prefixes_from] in H.
  - injection H as <-. cbn [length Nat.add]. unfold blen. cbn [length]. change (Z.of_nat 0) with 0.
    rewrite Z.add_0_r. reflexivity.
  - destruct (add_prefix p b) as [q|] eqn:Hq; [|discriminate].
    cbn [length Nat.add op_loop].
    rewrite (op_once_prefix a p b q off g n l (pre ++ t) F W C Hq).
    change (E_CONTINUE =? E_CONTINUE) with true. cbv iota.
    rewrite (IH q p' (off + 1) g n l t fuel F W (proj2 (code_from_cons _ _ _ _ C)) H).
    rewrite blen_cons. do 3 f_equal. lia.
Qed.

(** The pass that runs the handler. *)
Lemma op_once_exec a p off g n l bs o k m : flat E base a -> wf_regs a ->
  code_from a off bs -> dispatch bs = Some (o, k, m) ->
  op_once E (mkSt a (dec_of p off) g n l) = exec1 E o k (mkSt a (dec_of p (off + m)) g n l).
Proof.
  intros F W C H. destruct bs as [|op t]; [discriminate|]. unfold dispatch in H.
  unfold op_once. erewrite bind_ok by (eapply fetch8_code; eauto).
  cbn [d_ipoff dec_of].
  change (dd_ipoff (off + 1) (dec_of p off)) with (dec_of p (off + 1)).
  destruct (op =? 241); [discriminate|].
  destruct (Z.eqb_spec op 15) as [->|Hne].
  - destruct t as [|op2 t]; [discriminate|].
    destruct (ca_op0F op2) as [e|] eqn:He; [|discriminate]. injection H as <- <- <-.
    change (ca_op 15) with (DEF OExt0F). unfold DEF. cbn [op_param e_names e_op e_arg].
    unfold op_param. cbn [e_names e_arg]. rewrite st_ret. cbn [exec].
    apply code_from_cons in C. destruct C as [_ C].
    erewrite bind_ok by (eapply fetch8_code; [eauto|eauto|exact C]).
    cbv beta. rewrite He. cbn [d_ipoff dec_of].
    replace (off + 2) with (off + 1 + 1) by lia. reflexivity.
  - destruct (ca_op op) as [e|] eqn:He; [|discriminate].
    assert (Hexec : forall k s, e_op e <> OExt0F -> exec E (e_op e) k s = exec1 E (e_op e) k s).
    { intros k' s' Hx. unfold exec. destruct (e_op e); try reflexivity. congruence. }
    assert (Hx : e_op e <> OExt0F).
    { pose proof (code_byte_range E base a off op t F W C) as Hr.
      clear - He Hne Hr. intros Hx.
      assert (Hall : forallb (fun b => match ca_op (Z.of_nat b) with
                 | Some e => match e_op e with OExt0F => Nat.eqb b 15 | _ => true end
                 | None => true end) (seq 0 256) = true) by (vm_compute; reflexivity).
      rewrite forallb_forall in Hall. specialize (Hall (Z.to_nat op)).
      rewrite Z2Nat.id in Hall by lia. rewrite He, Hx in Hall.
      assert (In (Z.to_nat op) (seq 0 256)) as Hin by (apply in_seq; lia).
      specialize (Hall Hin). apply Nat.eqb_eq in Hall. lia. }
    unfold op_param. destruct (e_names e) eqn:En.
    + destruct t as [|mb t]; [discriminate|]. injection H as <- <- <-.
      apply code_from_cons in C. destruct C as [_ C].
      rewrite st_bind. erewrite bind_ok.
      2:{ unfold get_modrm_nocheck. rewrite (get_modrm_code E base a p (off + 1) g n l mb t F W C).
          reflexivity. }
      rewrite st_bind, st_upd_dc, st_ret. cbn [d_ipoff dec_of].
      replace (dd_ipoff (off + 1 + 1 - 1) (dec_of p (off + 1 + 1))) with (dec_of p (off + 1))
        by (unfold dec_of, dd_ipoff; cbn; f_equal; lia).
      rewrite Hexec by exact Hx. reflexivity.
    + injection H as <- <- <-. rewrite st_ret. rewrite Hexec by exact Hx. reflexivity.
Qed.

Lemma op_loop_exec a pre p g n l bs o k m : flat E base a -> wf_regs a ->
  code a (pre ++ bs) -> prefixes pre = Some p -> dispatch bs = Some (o, k, m) ->
  op_loop E 6 (mkSt a (dec_of (mkPfx None false false 0) 0) g n l) =
  match exec1 E o k (mkSt a (dec_of p (blen pre + m)) g n l) with
  | Err c s' => if c =? E_CONTINUE
                then op_loop E (5 - length pre) s' else Err c s'
  | x => x
  end.
Proof.
  intros F W C Hp Hd. pose proof (prefixes_length _ _ Hp) as Hl.
  replace 6%nat with (length pre + S (5 - length pre))%nat by lia.
  pose proof (code_from_0 _ _ C) as C0.
  rewrite (op_loop_prefixes a pre _ p 0 g n l bs _ F W C0 Hp).
  apply code_from_app in C0. cbn [op_loop].
  rewrite (op_once_exec a p _ g n l bs o k m F W C0 Hd). rewrite Z.add_0_l. reflexivity.
Qed.

Lemma dump_bytes_ok a d g n l cs k : flat E base a -> inrange 16 cs ->
  forall i, dump_bytes E k cs i (mkSt a d g n l) = Ok tt (mkSt a d g n l).
Proof.
  intros F Hc. induction k as [|k IH]; intros i; cbn [dump_bytes]; [reflexivity|].
  erewrite bind_ok by (apply rd_flat with (base := base); auto; unfold width; lia). apply IH.
Qed.

Lemma run_one_normal s : normal_pc (ar s) -> run_one E s =
  match do_opcode E s with
  | Err c s' => if c =? E_DIVERR then int_callint E 0 s' else Err c s'
  | x => x
  end.
Proof.
  intros [H1 H2]. unfold run_one.
  replace ((r_ip (ar s) =? 65535) && (r_cs (ar s) =? 65535)) with false by lia.
  replace ((r_cs (ar s) =? 47104) && (r_ip (ar s) <? 256)) with false by lia.
  reflexivity.
Qed.

Lemma do_opcode_eq a d g n l : n <> 2147483647 ->
  do_opcode E (mkSt a d g n l) =
  (op_loop E 6 ;;; advance_ip ;;; null_hack E (r_cs a) (r_ip a) ;;;
   trace_dump E (r_cs a) (r_ip a))
    (mkSt a (dec_of (mkPfx None false false 0) 0) g (n + 1) l).
Proof.
  intros H. unfold do_opcode. msteps.
  unfold gets at 1. unfold bind at 1. cbn [icount].
  replace (n =? 2147483647) with false by lia. reflexivity.
Qed.

(** Handler succeeded: what RME_RunOne does around it. *)
Lemma run_ok s pre p bs o k m a' d' a2 :
  fetched E base s pre p bs ->
  dispatch bs = Some (o, k, m) ->
  exec1 E o k (mkSt (ar s) (dec_of p (blen pre + m)) (dbg s) (icount s + 1) (lastnull s)) =
    Ok tt (mkSt a' d' (dbg s) (icount s + 1) (lastnull s)) ->
  flat E base a' -> d_ipoff d' = blen (pre ++ bs) ->
  same (if d_noip d' then a' else a_ip (wrap 16 (r_ip a' + d_ipoff d')) a') a2 ->
  executes_to E s (pre ++ bs) a2.
Proof.
  intros (R & Hp & C) Hd Hx F' Ho Hs.
  destruct R as [F W PC Hc]. unfold executes_to.
  destruct s as [a d g n l]. cbn [ar dc dbg icount lastnull] in *.
  rewrite run_one_normal by exact PC.
  rewrite do_opcode_eq by exact Hc. unfold bind at 1.
  rewrite (op_loop_exec a pre p g (n + 1) l bs o k m F W C Hp Hd). rewrite Hx.
  set (af := if d_noip d' then a' else a_ip (wrap 16 (r_ip a' + d_ipoff d')) a') in *.
  assert (Hadv : advance_ip (mkSt a' d' g (n + 1) l) = Ok tt (mkSt af d' g (n + 1) l)).
  { unfold advance_ip. msteps. unfold af. destruct (d_noip d'); [reflexivity|]. msteps.
    reflexivity. }
  unfold bind at 1. rewrite Hadv.
  assert (Ff : flat E base af).
  { unfold af. destruct (d_noip d'); [exact F'|]. eapply flat_ext; [| |exact F']; reflexivity. }
  destruct W as [_ _ _ _ _ _ Wcs Wip _].
  assert (Htr : forall st_l, trace_dump E (r_cs a) (r_ip a) (mkSt af d' g (n + 1) st_l) =
                Ok tt (mkSt af d' g (n + 1) st_l)).
  { intros st_l. unfold trace_dump, gets, bind. cbn [dbg].
    destruct (1 <=? g); [|reflexivity]. unfold getD, gets. cbn [dc].
    pose proof (blen_nonneg (pre ++ bs)). replace (d_ipoff d' <? 0) with false by lia.
    apply dump_bytes_ok; auto. }
  assert (Hnull : null_hack E (r_cs a) (r_ip a) (mkSt af d' g (n + 1) l) =
    (if is_null a a2 (pre ++ bs) then
       if l then Err E_BREAK (mkSt af d' g (n + 1) l) else Ok tt (mkSt af d' g (n + 1) true)
     else Ok tt (mkSt af d' g (n + 1) false))).
  { unfold null_hack, is_null. msteps. rewrite Ho.
    destruct (Z.eqb_spec (blen (pre ++ bs)) 2) as [H2|H2]; cbn [andb]; [|reflexivity].
    destruct C as [C _]. rewrite H2 in C. 
    erewrite bind_ok by (apply rd_flat with (base := base); auto; unfold width; lia).
    erewrite bind_ok by (apply rd_flat with (base := base); auto; unfold width; lia).
    rewrite !mem8. unfold inrange in *.
    rewrite (wrap_small 16 (r_ip a)) by (unfold inrange; lia).
    rewrite (wrap_small 16 (r_ip a + 1)) by (unfold inrange; lia).
    unfold pc. replace (lin (r_cs a) (r_ip a) + 1) with (lin (r_cs a) (r_ip a + 1)) by (unfold lin; lia).
    rewrite !(same_byte _ _ _ Hs).
    destruct ((byte a2 (lin (r_cs a) (r_ip a)) =? 0) && (byte a2 (lin (r_cs a) (r_ip a + 1)) =? 0));
      [|reflexivity].
    unfold gets, bind. cbn [lastnull]. destruct l; reflexivity. }
  unfold bind at 1. rewrite Hnull. destruct (is_null a a2 (pre ++ bs)) eqn:Hn.
  - destruct l; cbn [andb].
    + exists (mkSt af d' g (n + 1) true). cbn. auto.
    + rewrite Htr. exists (mkSt af d' g (n + 1) true). cbn. auto.
  - rewrite Htr, andb_false_r. exists (mkSt af d' g (n + 1) false). cbn. auto.
Qed.

(** Handler failed with a code other than CONTINUE and DIVERR. *)
Lemma run_err s pre p bs o k m c s' :
  fetched E base s pre p bs ->
  dispatch bs = Some (o, k, m) ->
  exec1 E o k (mkSt (ar s) (dec_of p (blen pre + m)) (dbg s) (icount s + 1) (lastnull s)) =
    Err c s' ->
  c <> E_CONTINUE ->
  run_one E s = if c =? E_DIVERR then int_callint E 0 s' else Err c s'.
Proof.
  intros (R & Hp & C) Hd Hx Hc1.
  destruct R as [F W PC Hc]. 
  destruct s as [a d g n l]. cbn [ar dc dbg icount lastnull] in *.
  rewrite run_one_normal by exact PC.
  rewrite do_opcode_eq by exact Hc. unfold bind at 1.
  rewrite (op_loop_exec a pre p g (n + 1) l bs o k m F W C Hp Hd). rewrite Hx.
  replace (c =? E_CONTINUE) with false by lia. reflexivity.
Qed.

(** Handler undefined. *)
Lemma run_ub s pre p bs o k m r :
  fetched E base s pre p bs ->
  dispatch bs = Some (o, k, m) ->
  exec1 E o k (mkSt (ar s) (dec_of p (blen pre + m)) (dbg s) (icount s + 1) (lastnull s)) = UB r ->
  run_one E s = UB r.
Proof.
  intros (R & Hp & C) Hd Hx.
  destruct R as [F W PC Hc]. 
  destruct s as [a d g n l]. cbn [ar dc dbg icount lastnull] in *.
  rewrite run_one_normal by exact PC.
  rewrite do_opcode_eq by exact Hc. unfold bind at 1.
  rewrite (op_loop_exec a pre p g (n + 1) l bs o k m F W C Hp Hd). rewrite Hx.
  reflexivity.
Qed.

End WithEnv.
