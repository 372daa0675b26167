(** Lemmas behind the first group of properties. *)
From Verif Require Import Base Cpu Alu Ops Machine Spec SpecOps SpecOps2 SpecSys SpecRun SpecTop PBase PMem PRun PFrame PAlu PExec PKeep PKeep2 PKeep3 PTop PTop2 PTop3 PDebug PIAlu PIAlu2 PAlg PStep PIMov PStop.

(** ** Iterated runs *)
Lemma runs_trans E k1 : forall k2 s1 s2 s3, runs E k1 s1 s2 -> runs E k2 s2 s3 -> runs E (k1 + k2) s1 s3.
Proof. induction k1; intros k2 s1 s2 s3 H; inversion H; subst; auto. intros. econstructor; eauto. Qed.
Lemma runs_fun E k : forall s s1 s2, runs E k s s1 -> runs E k s s2 -> s1 = s2.
Proof.
  induction k as [|k IH]; intros s s1 s2 H1 H2; inversion H1 as [|? ? t1 ? R1 T1]; inversion H2 as [|? ? t2 ? R2 T2]; subst; auto.
  assert (t1 = t2) by congruence. subst. eauto.
Qed.
Lemma rme_call_ok E fuel : forall s s', rme_call E fuel s = Ok tt s' <->
  exists k, (k < fuel)%nat /\ exists sk, runs E k s sk /\ run_one E sk = Err E_FCNRET s'.
Proof.
  induction fuel as [|f IH]; intros s s'; cbn [rme_call].
  - split; [discriminate|]. intros (k & Hk & _). lia.
  - destruct (run_one E s) as [[] s1|c s1|r|] eqn:Hr.
    + rewrite IH. split.
      * intros (k & Hk & sk & H1 & H2). exists (S k). split; [lia|]. exists sk. split; [econstructor; eauto|auto].
      * intros (k & Hk & sk & H1 & H2). inversion H1 as [|k0 ? t1 ? R1 T1]; subst; [congruence|]. assert (t1 = s1) by congruence. subst.
        exists k0. split; [lia|eauto].
    + destruct (Z.eqb_spec c E_FCNRET) as [->|Hc].
      * split.
        -- intros [= ->]. exists 0%nat. split; [lia|]. exists s. split; [constructor|auto].
        -- intros (k & Hk & sk & H1 & H2). inversion H1; subst; congruence.
      * split; [discriminate|]. intros (k & Hk & sk & H1 & H2). inversion H1; subst; congruence.
    + split; [discriminate|]. intros (k & Hk & sk & H1 & H2). inversion H1; subst; congruence.
    + split; [discriminate|]. intros (k & Hk & sk & H1 & H2). inversion H1; subst; congruence.
Qed.
Lemma rme_call_err E fuel : forall s c s', rme_call E fuel s = Err c s' <->
  c <> E_FCNRET /\ exists k, (k < fuel)%nat /\ exists sk, runs E k s sk /\ run_one E sk = Err c s'.
Proof.
  induction fuel as [|f IH]; intros s c s'; cbn [rme_call].
  - split; [discriminate|]. intros (_ & k & Hk & _). lia.
  - destruct (run_one E s) as [[] s1|c1 s1|r|] eqn:Hr.
    + rewrite IH. split.
      * intros (Hc & k & Hk & sk & H1 & H2). split; [auto|]. exists (S k). split; [lia|]. exists sk. split; [econstructor; eauto|auto].
      * intros (Hc & k & Hk & sk & H1 & H2). split; [auto|]. inversion H1 as [|k0 ? t1 ? R1 T1]; subst; [congruence|]. assert (t1 = s1) by congruence. subst.
        exists k0. split; [lia|eauto].
    + destruct (Z.eqb_spec c1 E_FCNRET) as [->|Hc].
      * split; [discriminate|]. intros (Hc & k & Hk & sk & H1 & H2). inversion H1; subst; congruence.
      * split.
        -- intros [= -> ->]. split; [auto|]. exists 0%nat. split; [lia|]. exists s. split; [constructor|auto].
        -- intros (Hc' & k & Hk & sk & H1 & H2). inversion H1; subst; congruence.
    + split; [discriminate|]. intros (Hc & k & Hk & sk & H1 & H2). inversion H1; subst; congruence.
    + split; [discriminate|]. intros (Hc & k & Hk & sk & H1 & H2). inversion H1; subst; congruence.
Qed.
Lemma rme_call_fuel E fuel : forall s, (exists s', runs E fuel s s') -> rme_call E fuel s = Fuel.
Proof.
  induction fuel as [|f IH]; intros s [s' H]; cbn [rme_call]; [reflexivity|]. inversion H; subst. rewrite H1. apply IH. eauto.
Qed.
Lemma run_one_ran E s : polite E -> wf_state s -> run_one E s <> Fuel.
Proof. intros HP Hw H. pose proof (run_one_general E HP s Hw) as G. rewrite H in G. exact G. Qed.
Lemma runs_general E k : polite E -> forall s s', runs E k s s' -> wf_state s ->
  guest_effect s s' /\ icount s <= icount s' <= icount s + Z.of_nat k.
Proof.
  intros HP. induction k as [|k IH]; intros s s' H Hw; inversion H; subst.
  - split; [apply effect_refl, Hw|lia].
  - pose proof (run_one_general E HP s Hw) as G. rewrite H1 in G. destruct G as (G1 & _ & G2).
    destruct (IH _ _ H2 (ge_wf _ _ G1)) as [G3 G4]. split; [eapply effect_trans; eauto|].
    destruct G2 as [[_ ->]|[_ ->]] in G4; lia.
Qed.

(** ** Fresh state *)
Lemma getptr_null E seg ofs s : null_check E = true ->
  let b := wrap 32 (seg * 16 + ofs) / 4096 in b < 272 -> mtab (ar s) b = 0 -> (zero_null_ok E = true -> b <> 0) ->
  getptr E seg ofs s = Err E_BADMEM s.
Proof.
  intros HE b Hb Hm Hz. unfold getptr. cbv zeta. fold b. rewrite HE, Hm. replace (b <? 272) with true by lia. cbn [andb].
  replace (0 =? 0) with true by reflexivity. rewrite andb_true_r.
  destruct (zero_null_ok E); cbn [andb negb]; [|reflexivity]. replace (b =? 0) with false by lia. reflexivity.
Qed.
Lemma fetch8_null E s : null_check E = true -> 
  let b := wrap 32 (r_cs (ar s) * 16 + wrap 16 (r_ip (ar s) + d_ipoff (dc s))) / 4096 in
  b < 272 -> mtab (ar s) b = 0 -> (zero_null_ok E = true -> b <> 0) -> fetch8 E s = Err E_BADMEM s.
Proof.
  intros HE b Hb Hm Hz. unfold fetch8, fetch, rd, bind, getA, gets, getD, gets. rewrite getptr_null; auto.
Qed.
Lemma run_null E s : null_check E = true -> at_instruction (ar s) -> icount s <> 2147483647 ->
  wf_regs (ar s) ->
  let b := pc (ar s) / 4096 in mtab (ar s) b = 0 -> (zero_null_ok E = true -> b <> 0) ->
  exists s', run_one E s = Err E_BADMEM s' /\ same (ar s') (ar s) /\ icount s' = icount s + 1 /\ dbg s' = dbg s /\ lastnull s' = lastnull s.
Proof.
  intros HE [P1 P2] Hc W b Hm Hz. unfold run_one.
  replace ((r_ip (ar s) =? 65535) && (r_cs (ar s) =? 65535)) with false by (unfold magic in P1; lia).
  replace ((r_cs (ar s) =? 47104) && (r_ip (ar s) <? 256)) with false by (unfold hle_entry_pc in P2; lia).
  unfold do_opcode. unfold bind at 1 2, getA, gets. unfold bind at 1, upd_dc, modify. unfold bind at 1, gets.
  change (icount (set_dc dec0 s)) with (icount s). replace (icount s =? 2147483647) with false by lia.
  unfold bind at 1, modify. set (s1 := set_icount _ _). unfold bind at 1. cbn [op_loop]. unfold op_once. unfold bind at 1.
  destruct W. unfold inrange in *.
  assert (Hb : wrap 32 (r_cs (ar s1) * 16 + wrap 16 (r_ip (ar s1) + d_ipoff (dc s1))) / 4096 = b).
  { unfold s1, b, pc, lin. cbn [set_icount set_dc dec0 ar dc d_ipoff]. rewrite Z.add_0_r. unfold wrap. rewrite (Z.mod_small (r_ip _)) by lia.
    rewrite Z.mod_small by lia. f_equal. lia. }
  rewrite fetch8_null; rewrite ?Hb; auto.
  - exists s1. cbn. split; [reflexivity|]. split; [apply same_refl|auto].
  - unfold b, pc, lin. apply Z.div_lt_upper_bound; lia.
Qed.

(** ** Debug level *)
Lemma run_one_debug E base s g : polite E -> ignores_debug_level E -> wf_state s -> flat E base (ar s) ->
  run_one E (set_dbg g s) = omap (set_dbg g) (run_one E s).
Proof.
  intros HP HB Hw F. apply run_one_dbg; [exact HB|]. intros s1 H1 g'. set (s0 := set_dbg 0 s).
  assert (Hw0 : wf_state s0) by (destruct Hw; constructor; assumption).
  pose proof (do_opcode_upto E HP s0 Hw0) as U. rewrite do_split in U. unfold s0 at 1 in U.
  rewrite (proj1 (nice_main E s) HB 0), H1 in U. cbn [omap] in U.
  assert (T : trace_dump E (r_cs (ar s0)) (r_ip (ar s0)) (set_dbg 0 s1) = Ok tt (set_dbg 0 s1)) by reflexivity.
  rewrite T in U. destruct U as [l I0]. apply trace_flat with (base := base); cbn [set_dbg ar dc].
  - change (ar s1) with (ar (set_dbg 0 s1)). eapply (inv_flat E gp); [|exact I0]. exact F.
  - apply Hw.
  - apply inv_effect in I0. destruct I0 as [W0 _ _ _]. exact (ws_off _ W0).
Qed.

(** ** Prefix sequences *)
Definition pfx_count (p : pfx) : nat :=
  ((match p_seg p with Some _ => 1 | None => 0 end) + (if p_os p then 1 else 0) + (if p_as p then 1 else 0) + (if (p_rep p =? 0)%Z then 0 else 1))%nat.
Lemma add_count p b p' : add_prefix p b = Some p' -> pfx_count p' = S (pfx_count p).
Proof.
  unfold add_prefix, pfx_count. destruct (seg_prefix b) as [n|].
  - destruct (p_seg p); [discriminate|]. intros [= <-]. reflexivity.
  - destruct (b =? 102). { destruct (p_os p); [discriminate|]. intros [= <-]. cbn. lia. }
    destruct (b =? 103). { destruct (p_as p); [discriminate|]. intros [= <-]. cbn. lia. }
    destruct ((b =? 242) || (b =? 243)) eqn:Hb; [|discriminate]. destruct (p_rep p =? 0); [|discriminate].
    intros [= <-]. cbn [p_seg p_os p_as p_rep]. replace (b =? 0) with false by lia. lia.
Qed.
Lemma prefixes_count l : forall p p', prefixes_from p l = Some p' -> pfx_count p' = (length l + pfx_count p)%nat.
Proof.
  induction l as [|b l IH]; intros p p'; cbn [prefixes_from length]; [intros [= ->]; reflexivity|].
  destruct (add_prefix p b) as [q|] eqn:Hq; [|discriminate]. intros H. apply IH in H. apply add_count in Hq. lia.
Qed.
Lemma prefixes_four pre p : prefixes pre = Some p -> (length pre <= 4)%nat.
Proof.
  intros H. apply prefixes_count in H. change (pfx_count (mkPfx None false false 0)) with 0%nat in H.
  unfold pfx_count in H. destruct (p_seg p), (p_os p), (p_as p), (p_rep p =? 0); lia.
Qed.

(** ** The 00 00 rule *)
Lemma zeros_instr E base s : let np := mkPfx None false false 0 in
  fetched E base s [] np [0; 0] -> operand_ok np (ar s) [0; 0] ->
  (let a' := alu_effect 0 8 (RMem (r_ds (ar s)) (low 16 (reg 16 3 (ar s) + reg 16 6 (ar s)))) (reg 8 0 (ar s)) (ar s) in
   byte a' (pc (ar s)) = 0 /\ byte a' (pc (ar s) + 1) = 0) ->
  exists s', (if lastnull s then run_one E s = Err E_BREAK s' else run_one E s = Ok tt s') /\ lastnull s' = true /\ icount s' = icount s + 1.
Proof.
  intros np F O [Z1 Z2].
  destruct (alu_instr E base s [] np [0; 0] 0 8 (RMem (r_ds (ar s)) (low 16 (reg 16 3 (ar s) + reg 16 6 (ar s)))) (reg 8 0 (ar s)) F)
    as (s' & R & _ & C & _ & L); auto.
  - cbn [decode_alu parse_rm np p_as]. change (0 / 64 =? 3) with false. change ((0 <=? 0) && (0 <? 64)) with true. cbv iota.
    change (disp (0 / 64) (0 mod 8) []) with (Some (0, @nil Z)). cbv iota beta. cbn [ifrest].
    change (ea_base (0 mod 8) (ar s)) with (reg 16 3 (ar s) + reg 16 6 (ar s)). rewrite Z.add_0_r. reflexivity.
  - assert (N : is_null (ar s) (next ([] ++ [0; 0]) (ar s) (alu_effect 0 8 (RMem (r_ds (ar s)) (low 16 (reg 16 3 (ar s) + reg 16 6 (ar s)))) (reg 8 0 (ar s)) (ar s))) ([] ++ [0; 0]) = true).
    { unfold is_null. change (blen ([] ++ [0; 0]) =? 2) with true. cbn [andb].
      match goal with |- (byte ?a' _ =? 0) && _ = true => change (byte a' (pc (ar s))) with (byte (alu_effect 0 8 (RMem (r_ds (ar s)) (low 16 (reg 16 3 (ar s) + reg 16 6 (ar s)))) (reg 8 0 (ar s)) (ar s)) (pc (ar s))); change (byte a' (pc (ar s) + 1)) with (byte (alu_effect 0 8 (RMem (r_ds (ar s)) (low 16 (reg 16 3 (ar s) + reg 16 6 (ar s)))) (reg 8 0 (ar s)) (ar s)) (pc (ar s) + 1)) end.
      rewrite Z1, Z2. reflexivity. }
    rewrite N in R, L. rewrite andb_true_r in R. exists s'. destruct (lastnull s); auto.
Qed.

(** ** Consequences of the general theorems *)
Lemma outcome_cases {X} (o : out unit) (P : st -> Prop) (Q : Z -> st -> Prop) :
  match o with Ok _ s' => P s' | Err c s' => Q c s' | UB _ => True | Fuel => X end ->
  forall s', (o = Ok tt s' -> P s') /\ (forall c, o = Err c s' -> Q c s').
Proof. intros H s'. split; [intros ->; exact H|intros c ->; exact H]. Qed.
Lemma effect_one E s : polite E -> wf_state s ->
  forall s', (run_one E s = Ok tt s' \/ exists c, run_one E s = Err c s') -> guest_effect s s'.
Proof.
  intros HP W s' H. pose proof (run_one_general E HP s W) as G.
  destruct H as [H|[c H]]; rewrite H in G; apply G.
Qed.
Lemma effect_call E fuel s : polite E -> wf_state s ->
  forall s', (rme_call E fuel s = Ok tt s' \/ exists c, rme_call E fuel s = Err c s') -> guest_effect s s'.
Proof.
  intros HP W s' H. pose proof (rme_call_general E HP fuel s W) as G.
  destruct H as [H|[c H]]; rewrite H in G; apply G.
Qed.
Lemma effect_callint E fuel n s : polite E -> wf_state s ->
  forall s', (call_int E fuel n s = Ok tt s' \/ exists c, call_int E fuel n s = Err c s') -> guest_effect s s'.
Proof.
  intros HP W s' H. pose proof (call_int_general E HP fuel n s W) as G.
  destruct H as [H|[c H]]; rewrite H in G; apply G.
Qed.
Definition config_one E s HP W s' H := ge_config _ _ (effect_one E s HP W s' H).
Definition config_call E f s HP W s' H := ge_config _ _ (effect_call E f s HP W s' H).
Definition config_callint E f n s HP W s' H := ge_config _ _ (effect_callint E f n s HP W s' H).
Definition wf_one E s HP W s' H := ge_wf _ _ (effect_one E s HP W s' H).
Lemma count_one E s : polite E -> wf_state s ->
  forall s', (run_one E s = Ok tt s' \/ exists c, run_one E s = Err c s') ->
  icount s' = icount s + (if ((r_cs (ar s) =? 65535) && (r_ip (ar s) =? 65535)) || ((r_cs (ar s) =? 47104) && (r_ip (ar s) <? 256)) then 0 else 1).
Proof.
  intros HP W s' H. pose proof (run_one_general E HP s W) as G. unfold ordinary, magic, hle_entry_pc in G.
  destruct H as [H|[c H]]; rewrite H in G.
  - destruct G as (_ & M & [[O C]|[O C]]); rewrite C; destruct (_ || _) eqn:B; lia.
  - destruct G as (_ & [(O & _ & ->)|(O & _ & C)]).
    + replace ((r_cs (ar s) =? 65535) && (r_ip (ar s) =? 65535)) with true by lia. cbn. lia.
    + rewrite C; destruct (_ || _) eqn:B; lia.
Qed.
(** Without the NULL check the first fetch goes through the NULL pointer. *)
Lemma run_null_shipped E s : null_check E = false -> at_instruction (ar s) -> icount s <> 2147483647 ->
  wf_regs (ar s) -> hmem (ar s) (mtab (ar s) (pc (ar s) / 4096) + pc (ar s) mod 4096) = None ->
  run_one E s = UB UbDeref.
Proof.
  intros HE [P1 P2] Hc W Hm. unfold run_one.
  replace ((r_ip (ar s) =? 65535) && (r_cs (ar s) =? 65535)) with false by (unfold magic in P1; lia).
  replace ((r_cs (ar s) =? 47104) && (r_ip (ar s) <? 256)) with false by (unfold hle_entry_pc in P2; lia).
  unfold do_opcode. unfold bind at 1 2, getA, gets. unfold bind at 1, upd_dc, modify. unfold bind at 1, gets.
  change (icount (set_dc dec0 s)) with (icount s). replace (icount s =? 2147483647) with false by lia.
  unfold bind at 1, modify. set (s1 := set_icount _ _). unfold bind at 1. cbn [op_loop]. unfold op_once. unfold bind at 1.
  destruct W. unfold inrange in *.
  unfold fetch8, fetch, rd, bind, getA, gets, getD, gets, getptr. cbv zeta. rewrite HE.
  assert (Hb : wrap 32 (r_cs (ar s1) * 16 + wrap 16 (r_ip (ar s1) + d_ipoff (dc s1))) = pc (ar s)).
  { unfold s1, pc, lin. cbn [set_icount set_dc dec0 ar dc d_ipoff]. rewrite Z.add_0_r. unfold wrap. rewrite (Z.mod_small (r_ip _)) by lia.
    rewrite Z.mod_small by lia. lia. }
  rewrite Hb. replace (pc (ar s) / 4096 <? 272) with true.
  2:{ symmetry. apply Z.ltb_lt. unfold pc, lin. apply Z.div_lt_upper_bound; lia. }
  cbn [andb]. unfold hload. change (nbytes 8) with 1%nat. cbn [load_bytes]. change (ar s1) with (ar s). rewrite Hm. reflexivity.
Qed.
