(** RME_RunOne, RME_Call and RME_CallInt on arbitrary well-formed states. *)
From Verif Require Import Base Cpu Alu Ops Machine Spec SpecRun PBase PMem PRun PFrame PAlu PExec PKeep PKeep2 PKeep3 PTop.

(** ** Relating the invariant to the specification vocabulary *)
Definition gp : perm := mkPerm true true true true (fun _ => True).
Definition inv_ar_eq (P : perm) (s0 s : st) : Prop := inv P s0 s.

Lemma near_reach mt x : reachable mt x <-> near_block mt x. Proof. reflexivity. Qed.
Lemma inv_effect P s0 s : inv P s0 s -> guest_effect s0 s.
Proof.
  intros []. constructor.
  - constructor; auto.
  - constructor; auto.
  - intros x Hx. destruct (iv_mem x) as [H|H]; [contradiction|exact H].
  - destruct iv_log as (l & Hl & _). eauto.
Qed.
Lemma effect_inv s0 s : guest_effect s0 s -> icount s = icount s0 -> lastnull s = lastnull s0 -> inv gp s0 s.
Proof.
  intros [[] [] Hm Hio] Hc Hl. constructor; cbn; auto; try discriminate.
  - destruct Hio as [l Hl']. exists l. split; [exact Hl'|discriminate].
  - intros x. destruct (hmem (ar s) x) as [u|] eqn:E1; destruct (hmem (ar s0) x) as [v|] eqn:E2.
    + destruct (Z.eq_dec u v) as [->|Hne]; [auto|right; apply Hm; congruence].
    + right. apply Hm. congruence.
    + right. apply Hm. congruence.
    + auto.
Qed.
Lemma wf_inv s : wf_state s -> inv gp s s.
Proof.
  intros []. constructor; auto; try (intros; split; auto; fail).
  - exists []. rewrite app_nil_r. auto.
Qed.
Lemma effect_refl s : wf_state s -> guest_effect s s.
Proof. intros. eapply inv_effect, wf_inv; auto. Qed.
Lemma effect_trans s1 s2 s3 : guest_effect s1 s2 -> guest_effect s2 s3 -> guest_effect s1 s3.
Proof.
  intros [W1 [] M1 [l1 L1]] [W2 [] M2 [l2 L2]]. constructor; auto.
  - constructor; try congruence. intros x. rewrite sc_dom0. auto.
  - intros x Hx. destruct (hmem (ar s2) x) as [u|] eqn:E1; destruct (hmem (ar s1) x) as [v|] eqn:E2.
    + destruct (Z.eq_dec u v) as [->|Hne]; [rewrite <- sc_map; apply M2; congruence|apply M1; congruence].
    + apply M1; congruence.
    + apply M1; congruence.
    + rewrite <- sc_map. apply M2; congruence.
  - exists (l1 ++ l2). rewrite L2, L1, app_assoc. reflexivity.
Qed.
Lemma cb_polite E s0 : polite E -> cb_ok E gp s0.
Proof.
  intros Hp h n s Hs. destruct (Hp h n s) as (H1 & H2 & H3 & H4).
  { apply (ge_wf s0 s), (inv_effect gp), Hs. }
  split; [|rewrite H4; reflexivity]. apply effect_inv.
  - eapply effect_trans; [apply (inv_effect gp), Hs|exact H1].
  - rewrite H2. apply Hs.
  - rewrite H3. apply Hs.
Qed.
Lemma gp_perm E s0 : polite E -> forall o, op_perm E gp s0 o.
Proof. intros Hp o. split; [|split; [|split; [|split; [|split]]]]; cbn; auto. intros _. apply cb_polite, Hp. Qed.
Lemma gp_mem E s0 : (exists base, flat E base (ar s0)) \/ (pm_ub gp UbDeref /\ pm_ub gp UbUninit).
Proof. right. split; exact I. Qed.

Section Run.
Context (E : env) (HP : polite E).

Lemma rd_any w sg o s : match rd E w sg o s with Ok _ s' | Err _ s' => s' = s | UB _ => True | Fuel => False end.
Proof.
  unfold rd, bind, getptr. cbv zeta. destruct (_ <? 272); [|exact I]. destruct (_ && _ && _); [reflexivity|].
  unfold hload. destruct (load_bytes _ _ _); [reflexivity|exact I].
Qed.
Lemma rd_code w sg o s c s' : rd E w sg o s = Err c s' -> c = E_BADMEM.
Proof.
  unfold rd, bind, getptr. cbv zeta. destruct (_ <? 272); [|discriminate]. destruct (_ && _ && _); [congruence|].
  unfold hload. destruct (load_bytes _ _ _); discriminate.
Qed.
Definition quiet (m : M unit) : Prop := forall s,
  match m s with
  | Ok _ s' => exists l, s' = set_lastnull l s
  | Err c s' => (exists l, s' = set_lastnull l s) /\ (c = E_BADMEM \/ c = E_BREAK)
  | UB _ => True | Fuel => False end.
Lemma quiet_null cs ip : quiet (null_hack E cs ip).
Proof.
  intros s. unfold null_hack. unfold bind at 1, getD, gets.
  assert (Hs : s = set_lastnull (lastnull s) s) by (destruct s; reflexivity).
  destruct (d_ipoff (dc s) =? 2); [|cbn; eauto].
  unfold bind at 1. pose proof (rd_any 8 cs ip s) as H1. pose proof (rd_code 8 cs ip s) as C1.
  destruct (rd E 8 cs ip s) as [b1 s1|c1 s1|r|]; auto; subst.
  2:{ split; [eauto|]. left. eapply C1; eauto. }
  unfold bind at 1. pose proof (rd_any 8 cs (ip + 1) s) as H1. pose proof (rd_code 8 cs (ip + 1) s) as C2.
  destruct (rd E 8 cs (ip + 1) s) as [b2 s1|c1 s1|r|]; auto; subst.
  2:{ split; [eauto|]. left. eapply C2; eauto. }
  destruct (_ && _); [|cbn; eauto].
  unfold bind, gets. destruct (lastnull s); cbn; eauto.
Qed.
Lemma quiet_dump n : forall cs i, quiet (dump_bytes E n cs i).
Proof.
  induction n as [|n IH]; intros cs i s; cbn [dump_bytes].
  - cbn. exists (lastnull s). destruct s; reflexivity.
  - assert (Hs : s = set_lastnull (lastnull s) s) by (destruct s; reflexivity).
    unfold bind. pose proof (rd_any 8 cs i s) as H1. pose proof (rd_code 8 cs i s) as C1.
    destruct (rd E 8 cs i s) as [b1 s1|c1 s1|r|]; auto; subst.
    + apply IH.
    + split; [eauto|]. left. eapply C1; eauto.
Qed.
Lemma quiet_trace cs ip : quiet (trace_dump E cs ip).
Proof.
  intros s. unfold trace_dump, bind, gets, getD, gets.
  assert (Hs : s = set_lastnull (lastnull s) s) by (destruct s; reflexivity).
  destruct (1 <=? dbg s); [|cbn; eauto].
  destruct (_ <? 0); [exact I|]. apply quiet_dump.
Qed.
(** State after an instruction: invariant up to the 00 00 flag. *)
Definition upto (s0 s : st) : Prop := exists l, inv gp (set_lastnull l s0) s.
Lemma upto_set s0 s l : upto s0 s -> upto s0 (set_lastnull l s).
Proof. intros [l' []]. exists l. constructor; cbn in *; auto. Qed.
Lemma upto_inv s0 s : inv gp s0 s -> upto s0 s.
Proof. intros H. exists (lastnull s0). destruct s0; exact H. Qed.
Lemma int_callint_upto n s0 s : upto s0 s ->
  match int_callint E n s with
  | Ok _ s' => upto s0 s' | Err c s' => upto s0 s' /\ 2 <= c <= 8 | UB _ => True | Fuel => False end.
Proof.
  intros [l Hi]. unfold int_callint. destruct (_ || _); [cbn; unfold E_INVAL; split; [exists l; exact Hi|lia]|].
  assert (K : keeps gp (set_lastnull l s0) 0 any (push E (getflags) ;;; push E (getA r_cs) ;;; push E (getA r_ip) ;;;
     f <- getflags ;; set_flags (fclear (M_IF + M_TF) f) ;;; i <- rd E 16 0 (n * 4) ;; set_ip i ;;; c <- rd E 16 0 (n * 4 + 2) ;; set_cs c)).
  { set (s1 := set_lastnull l s0). pose proof (gp_mem E s1) as Hm.
    assert (H0 : inrange 16 0) by (apply fl_const; reflexivity).
    assert (W : forall X (m : M X) Q, keeps gp s1 0 Q m -> keeps gp s1 0 any m).
    { intros. eapply keeps_weak; eauto; [lia|]. intros; exact Logic.I. }
    eapply keeps_bind; [apply keeps_push; auto; eapply W, keeps_getflags|intros].
    eapply keeps_bind; [apply keeps_push; auto; apply keeps_getA_any|intros].
    eapply keeps_bind; [apply keeps_push; auto; apply keeps_getA_any|intros].
    eapply keeps_bind; [apply keeps_getflags|intros].
    eapply keeps_bind; [apply keeps_set_flags; auto with fl|intros].
    eapply keeps_bind; [apply keeps_rd; auto using width16|intros].
    eapply keeps_bind; [apply keeps_set_ip; reflexivity|intros].
    eapply keeps_bind; [apply keeps_rd; auto using width16|intros].
    eapply keeps_weak; [apply keeps_set_cs; reflexivity|lia|auto]. }
  pose proof (proj1 (keeps_run _ _ _ _ _) K s Hi) as H.
  match goal with |- match ?m with _ => _ end => destruct m end; auto.
  - exists l. apply H.
  - destruct H as (H & H' & _). split; [exists l; assumption|assumption].
Qed.
Definition ordinary_start (s : st) : st := set_icount (icount s + 1) (set_dc dec0 s).
Lemma do_opcode_upto s : wf_state s ->
  match do_opcode E s with
  | Ok _ s' => upto (ordinary_start s) s'
  | Err c s' => upto (ordinary_start s) s' /\ 2 <= c <= 8
  | UB r => True
  | Fuel => False
  end.
Proof.
  intros Hw. set (s1 := ordinary_start s).
  unfold do_opcode. unfold bind at 1 2, getA, gets. unfold bind at 1, upd_dc, modify. unfold bind at 1, gets.
  change (icount (set_dc dec0 s)) with (icount s). destruct (_ =? 2147483647); [exact I|].
  unfold bind at 1, modify. fold s1. change (set_icount (icount s + 1) (set_dc dec0 s)) with s1.
  assert (W1 : wf_state s1).
  { destruct Hw. constructor; cbn; auto; lia. }
  pose proof (wf_inv s1 W1) as I1.
  pose proof (loop_keeps E gp s1 (gp_mem E s1) (gp_perm E s1 HP) 6 s1 I1 ltac:(pose proof (unused_range (dc s1)); lia)) as HL.
  unfold bind at 1. destruct (op_loop E 6 s1) as [u s2|c s2|r|]; auto.
  2:{ destruct HL as (HL & HL' & _). split; [apply upto_inv; assumption|assumption]. }
  destruct HL as [I2 _].
  assert (KA : keeps gp s1 0 any advance_ip).
  { unfold advance_ip. eapply keeps_bind; [apply keeps_getD_any|]. intros nn _. destruct nn; [apply keeps_ret; [lia|exact Logic.I]|].
    eapply keeps_bind; [apply keeps_getA_any|intros]. eapply keeps_bind; [apply keeps_getD_any|intros].
    eapply keeps_weak; [apply keeps_set_ip; reflexivity|lia|auto]. }
  pose proof (proj1 (keeps_run _ _ _ _ _) KA s2 I2) as HA. unfold bind at 1.
  destruct (advance_ip s2) as [u3 s3|c s3|r|]; auto.
  2:{ destruct HA as (HA & HA' & _). split; [apply upto_inv; assumption|assumption]. }
  destruct HA as [I3 _]. apply upto_inv in I3.
  unfold bind at 1. pose proof (quiet_null (r_cs (ar s)) (r_ip (ar s)) s3) as Q1.
  destruct (null_hack E (r_cs (ar s)) (r_ip (ar s)) s3) as [u4 s4|c s4|r|]; auto.
  2:{ destruct Q1 as [[l ->] Q2]. split; [apply upto_set, I3|]. destruct Q2 as [->| ->]; unfold E_BADMEM, E_BREAK; lia. }
  destruct Q1 as [l ->]. apply upto_set with (l := l) in I3.
  pose proof (quiet_trace (r_cs (ar s)) (r_ip (ar s)) (set_lastnull l s3)) as Q3.
  destruct (trace_dump E (r_cs (ar s)) (r_ip (ar s)) (set_lastnull l s3)) as [u5 s5|c s5|r|]; auto.
  - destruct Q3 as [l' ->]. apply upto_set, I3.
  - destruct Q3 as [[l' ->] Q4]. split; [apply upto_set, I3|]. destruct Q4 as [->| ->]; unfold E_BADMEM, E_BREAK; lia.
Qed.
Lemma upto_effect s s' : wf_state s -> upto (ordinary_start s) s' -> guest_effect s s' /\ icount s' = icount s + 1.
Proof.
  intros Hw [l H]. split; [|apply (iv_cnt _ _ _ H)]. apply inv_effect in H.
  destruct H as [H1 [] H2 H3]. constructor; auto. constructor; auto.
Qed.

(** One RME_RunOne. *)
Definition ordinary (s : st) : Prop := ~ magic (ar s) /\ ~ hle_entry_pc (ar s).
Theorem run_one_general s : wf_state s ->
  match run_one E s with
  | Ok _ s' => guest_effect s s' /\ ~ magic (ar s) /\
               (ordinary s /\ icount s' = icount s + 1 \/ hle_entry_pc (ar s) /\ icount s' = icount s)
  | Err c s' => guest_effect s s' /\
               (magic (ar s) /\ c = E_FCNRET /\ s' = s \/ ordinary s /\ 2 <= c <= 8 /\ icount s' = icount s + 1)
  | UB r => True
  | Fuel => False
  end.
Proof.
  intros Hw. unfold run_one. destruct ((r_ip (ar s) =? 65535) && (r_cs (ar s) =? 65535)) eqn:H1.
  { split; [apply effect_refl, Hw|]. left. unfold magic. split; [lia|auto]. }
  assert (N1 : ~ magic (ar s)) by (unfold magic; lia).
  destruct ((r_cs (ar s) =? 47104) && (r_ip (ar s) <? 256)) eqn:H2.
  - assert (N2 : hle_entry_pc (ar s)) by (unfold hle_entry_pc; lia).
    pose proof (wf_inv s Hw) as I0. pose proof (cb_polite E s HP) as Hcb.
    pose proof (proj1 (keeps_run _ _ _ _ _) (keeps_hle E gp s (r_ip (ar s)) Hcb) s I0) as HC.
    destruct (call_hle E (r_ip (ar s)) s) as [u s1|c s1|r|] eqn:Hc; auto.
    + destruct HC as [I1 _].
      pose proof (proj1 (keeps_run _ _ _ _ _) (k_iret E gp s (gp_mem E s) eq_refl eq_refl) s1 I1) as HR.
      destruct (x_iret E s1) as [u2 s2|c s2|r|]; auto; destruct HR as [I2 _];
      (split; [eapply inv_effect; eauto|]; split; [exact N1|]; right; split; [exact N2|apply (iv_cnt _ _ _ I2)]).
    + unfold call_hle in Hc. destruct (hle (ar s) _ =? 0); discriminate.
  - assert (N2 : ordinary s) by (split; [exact N1|unfold hle_entry_pc; lia]).
    pose proof (do_opcode_upto s Hw) as HD. destruct (do_opcode E s) as [u s1|c s1|r|]; auto.
    + destruct (upto_effect s s1 Hw HD) as [G C]. split; [exact G|]. split; [exact N1|]. left. auto.
    + destruct HD as [U Hc]. destruct (c =? E_DIVERR).
      * pose proof (int_callint_upto 0 _ s1 U) as HI. destruct (int_callint E 0 s1) as [u s2|c2 s2|r|]; auto.
        -- destruct (upto_effect s s2 Hw HI) as [G C]. split; [exact G|]. split; [exact N1|]. left. auto.
        -- destruct HI as [HI Hc2]. destruct (upto_effect s s2 Hw HI) as [G C]. split; [exact G|]. right. auto.
      * destruct (upto_effect s s1 Hw U) as [G C]. split; [exact G|]. right. auto.
Qed.
(** Any number of them. *)
Theorem rme_call_general fuel : forall s, wf_state s ->
  match rme_call E fuel s with
  | Ok _ s' => guest_effect s s' /\ magic (ar s') /\ icount s <= icount s' <= icount s + Z.of_nat fuel
  | Err c s' => guest_effect s s' /\ 2 <= c <= 8 /\ icount s <= icount s' <= icount s + Z.of_nat fuel
  | UB _ | Fuel => True
  end.
Proof.
  induction fuel as [|fuel IH]; intros s Hw; cbn [rme_call]; [exact I|].
  pose proof (run_one_general s Hw) as H. destruct (run_one E s) as [u s1|c s1|r|]; auto.
  - destruct H as (G & _ & HC). specialize (IH s1 (ge_wf _ _ G)).
    assert (icount s <= icount s1 <= icount s + 1) by lia.
    destruct (rme_call E fuel s1) as [u2 s2|c s2|r|]; auto; destruct IH as (G2 & H2 & H3);
    (split; [eapply effect_trans; eauto|]; split; [exact H2|lia]).
  - destruct H as (G & [(Hm & -> & ->)|(Ho & Hc & Hi)]).
    + change (E_FCNRET =? E_FCNRET) with true. cbv iota. split; [exact G|]. split; [exact Hm|lia].
    + replace (c =? E_FCNRET) with false by (unfold E_FCNRET; lia). split; [exact G|]. split; [exact Hc|lia].
Qed.
Theorem call_int_general fuel n s : wf_state s ->
  match call_int E fuel n s with
  | Ok _ s' => guest_effect s s' /\ magic (ar s')
  | Err c s' => guest_effect s s' /\ 2 <= c <= 8
  | UB _ | Fuel => True
  end.
Proof.
  intros Hw. unfold call_int. unfold bind at 1 2. unfold set_cs, set_ip, upd_ar, modify.
  set (s1 := set_ar _ (set_ar _ s)). assert (I1 : inv gp s s1).
  { pose proof (wf_inv s Hw) as []. constructor; cbn; auto; try discriminate.
    destruct iv_regs. constructor; cbn; auto; apply wrap_range; lia. }
  apply upto_inv in I1. pose proof (int_callint_upto n _ s1 I1) as H. unfold bind.
  assert (HU : forall s', upto s s' -> guest_effect s s').
  { intros s' [l Hl]. apply inv_effect in Hl. destruct Hl as [? [] ? ?]. constructor; auto. constructor; auto. }
  destruct (int_callint E n s1) as [u s2|c s2|r|]; auto.
  - apply HU in H. pose proof (rme_call_general fuel s2 (ge_wf _ _ H)) as HR.
    destruct (rme_call E fuel s2); auto; destruct HR as (G & HR & _); (split; [eapply effect_trans; eauto|auto]).
  - destruct H. split; auto.
Qed.
End Run.

(** A fresh state is well formed. *)
Lemma fresh_wf debug h : (forall x b, h x = Some b -> 0 <= b < 256) -> wf_state (create_state debug h).
Proof.
  intros H. constructor; cbn; auto; try lia. constructor; cbn; unfold inrange; cbn; lia.
Qed.
