(** One RME_RunOne on an arbitrary state: the invariant for whole instructions. *)
From Verif Require Import Base Cpu Alu Ops Machine Spec SpecRun PBase PMem PRun PFrame PAlu PExec PKeep PKeep2 PKeep3.

(** ** Table facts *)
Definition arg_okb (o : opid) (p : Z) : bool :=
  (0 <=? p) && (p <? 8) &&
  match o with
  | OPushSeg | OOvrSeg => p <? 6
  | OPopSeg => (p <? 6) && negb (p =? 1)
  | OLxs sr => (0 <=? sr) && (sr <? 6) && negb (sr =? 1)
  | _ => true
  end.
Lemma arg_okb_ok o p : arg_okb o p = true -> arg_ok o p.
Proof. unfold arg_okb, arg_ok. intros H. destruct o; lia. Qed.
Lemma ca_table (f : entry -> bool) (t : list (option entry)) b e :
  forallb (fun o => match o with Some e => f e | None => true end) t = true ->
  nth (Z.to_nat b) t None = Some e -> f e = true.
Proof.
  intros H Hn. destruct (nth_in_or_default (Z.to_nat b) t None) as [Hi|Hi]; [|congruence].
  rewrite forallb_forall in H. rewrite Hn in Hi. apply (H _ Hi).
Qed.
Lemma ca_op_ok b e : ca_op b = Some e -> 0 <= e_arg e < 8 /\ forall k, 0 <= k < 8 -> (e_names e = false -> k = e_arg e) -> arg_ok (e_op e) k.
Proof.
  intros H. unfold ca_op in H.
  pose proof (ca_table (fun e => arg_okb (e_op e) (e_arg e) && (negb (e_names e) || forallb (arg_okb (e_op e)) [0;1;2;3;4;5;6;7]))
     caOperations b e ltac:(vm_compute; reflexivity) H) as Ht. cbn beta in Ht. apply andb_true_iff in Ht. destruct Ht as [H1 H2].
  apply arg_okb_ok in H1. split; [apply H1|]. intros k Hk Hn. destruct (e_names e); cbn [negb orb] in H2.
  - rewrite forallb_forall in H2. apply arg_okb_ok, H2. 
    assert (k = 0 \/ k = 1 \/ k = 2 \/ k = 3 \/ k = 4 \/ k = 5 \/ k = 6 \/ k = 7) as Hd by lia. cbn. intuition.
  - rewrite Hn by reflexivity. exact H1.
Qed.
Lemma ca_op0F_ok b e : ca_op0F b = Some e -> arg_ok (e_op e) (e_arg e) /\ is_prefix (e_op e) = false /\ op_len (e_op e) = 7.
Proof.
  intros H. unfold ca_op0F in H.
  pose proof (ca_table (fun e => arg_okb (e_op e) (e_arg e) && negb (is_prefix (e_op e)) && (op_len (e_op e) =? 7))
     caOperations0F b e ltac:(vm_compute; reflexivity) H) as Ht. cbn beta in Ht.
  apply andb_true_iff in Ht. destruct Ht as [Ht H3]. apply andb_true_iff in Ht. destruct Ht as [H1 H2].
  apply arg_okb_ok in H1. split; [exact H1|]. split; [|lia]. destruct (is_prefix (e_op e)); [discriminate|reflexivity].
Qed.
Lemma op_len_le o : 7 <= op_len o <= 10. Proof. destruct o; cbn; lia. Qed.

Section Top.
Context (E : env) (P : perm) (s0 : st).
Context (Hmem : (exists base, flat E base (ar s0)) \/ (pm_ub P UbDeref /\ pm_ub P UbUninit)).
Context (Hperm : forall o, op_perm E P s0 o).
Notation K := (keeps P s0).
Notation I := (inv P s0).

Lemma exec_keeps o p : arg_ok o p -> is_prefix o = false -> K 10 any (exec E o p).
Proof.
  intros Ha Hp. destruct o;
  try (unfold exec; eapply keeps_weak; [apply exec1_keeps; auto|apply op_len_le|auto]; fail).
  unfold exec. eapply keeps_bind; [apply keeps_fetch8; auto|]. intros b _.
  destruct (ca_op0F b) as [e|] eqn:He.
  - destruct (ca_op0F_ok _ _ He) as (H1 & H2 & H3). eapply keeps_weak; [apply exec1_keeps; auto|lia|auto].
  - apply keeps_err. unfold E_UNDEF. lia.
Qed.
(** Prefix kinds still unused. *)
Definition unused (d : dec) : Z :=
  (if d_seg d =? -1 then 1 else 0) + (if d_op d then 0 else 1) + (if d_addr d then 0 else 1) + (if d_rep d =? 0 then 1 else 0).
Lemma unused_range d : 0 <= unused d <= 4.
Proof. unfold unused. destruct (_ =? -1), (d_op d), (d_addr d), (_ =? 0); lia. Qed.
Lemma prefix_keeps o p s : arg_ok o p -> is_prefix o = true -> I s ->
  match exec E o p s with
  | Err c s' => I s' /\ ((2 <= c <= 8 /\ (c = 5 -> pm_div P = true)) \/ (c = E_CONTINUE /\ d_ipoff (dc s') = d_ipoff (dc s) /\ unused (dc s') = unused (dc s) - 1))
  | _ => False
  end.
Proof.
  intros [Ha1 Ha2] Hp Hs. 
  destruct o; try discriminate Hp; cbn [exec exec1]; unfold x_ovr_seg, x_ovr_op, x_ovr_addr, x_rep; unfold bind at 1, getD, gets.
  - destruct (Z.eqb_spec (d_seg (dc s)) (-1)) as [H|H]; [|cbn; unfold E_UNDEF; split; [exact Hs|left; lia]].
    unfold bind at 1, chkseg. rewrite sreg_ok by lia. cbn. split.
    + destruct Hs. constructor; cbn; auto. right. lia.
    + right. split; [reflexivity|]. split; [reflexivity|]. unfold unused. cbn [d_seg dd_seg d_op d_addr d_rep]. rewrite H. cbn. destruct (Z.eqb_spec p (-1)); lia.
  - destruct (d_op (dc s)) eqn:H; [cbn; unfold E_UNDEF; split; [exact Hs|left; lia]|]. cbn. split.
    + destruct Hs. constructor; cbn; auto.
    + right. split; [reflexivity|]. split; [reflexivity|]. unfold unused. cbn [d_seg dd_op d_op d_addr d_rep]. rewrite H. lia.
  - destruct (d_addr (dc s)) eqn:H; [cbn; unfold E_UNDEF; split; [exact Hs|left; lia]|]. cbn. split.
    + destruct Hs. constructor; cbn; auto.
    + right. split; [reflexivity|]. split; [reflexivity|]. unfold unused. cbn [d_seg dd_addr d_op d_addr d_rep]. rewrite H. lia.
  - destruct (Z.eqb_spec (d_rep (dc s)) 0) as [H|H]; [|cbn; unfold E_UNDEF; split; [exact Hs|left; lia]]. cbn. split.
    + destruct Hs. constructor; cbn; auto.
    + right. split; [reflexivity|]. split; [reflexivity|]. unfold unused. cbn [d_seg dd_rep d_op d_addr d_rep]. rewrite H. cbn. lia.
  - destruct (Z.eqb_spec (d_rep (dc s)) 0) as [H|H]; [|cbn; unfold E_UNDEF; split; [exact Hs|left; lia]]. cbn. split.
    + destruct Hs. constructor; cbn; auto.
    + right. split; [reflexivity|]. split; [reflexivity|]. unfold unused. cbn [d_seg dd_rep d_op d_addr d_rep]. rewrite H. cbn. lia.
Qed.
Lemma fetch_dc w s v s' : fetch E w s = Ok v s' -> dc s' = dd_ipoff (d_ipoff (dc s) + w / 8) (dc s).
Proof.
  unfold fetch, bind, getA, getD, gets. destruct (rd E w (r_cs (ar s)) _ s) as [x s1| | |] eqn:H; try discriminate.
  apply rd_st in H. subst s1. cbn. intros [= _ <-]. reflexivity.
Qed.
Lemma op_param_dc e s k s' : op_param E e s = Ok k s' -> dc s' = dc s /\ (e_names e = false -> k = e_arg e).
Proof.
  unfold op_param. destruct (e_names e).
  - unfold bind, get_modrm_nocheck, get_modrm, bind, fetch8. destruct (fetch E 8 s) as [x s1| | |] eqn:H; try discriminate.
    apply fetch_dc in H. cbn. intros [= _ <-]. cbn. rewrite H. split; [|discriminate].
    unfold dd_ipoff. cbn. replace (d_ipoff (dc s) + 8 / 8 - 1) with (d_ipoff (dc s)) by (change (8/8) with 1; lia).
    destruct (dc s); reflexivity.
  - intros [= <- <-]. auto.
Qed.
Lemma once_keeps s : I s ->
  match op_once E s with
  | Ok _ s' => I s' /\ d_ipoff (dc s) + 1 <= d_ipoff (dc s') <= d_ipoff (dc s) + 11
  | Err c s' => I s' /\ ((2 <= c <= 8 /\ (c = 5 -> pm_div P = true)) \/ (c = E_CONTINUE /\ d_ipoff (dc s') = d_ipoff (dc s) + 1 /\ unused (dc s') = unused (dc s) - 1))
  | UB r => pm_ub P r
  | Fuel => False
  end.
Proof.
  intros Hs. unfold op_once. unfold bind at 1.
  pose proof (proj1 (keeps_run _ _ _ _ _) (keeps_fetch8 E P s0 Hmem) s Hs) as Hf.
  destruct (fetch8 E s) as [b s1|c s1|r|] eqn:H1; auto; [|tauto].
  destruct Hf as (I1 & _ & Hb). unfold fetch8 in H1. apply fetch_dc in H1. change (8 / 8) with 1 in H1.
  assert (L1 : d_ipoff (dc s1) = d_ipoff (dc s) + 1) by (rewrite H1; reflexivity).
  assert (U1 : unused (dc s1) = unused (dc s)) by (rewrite H1; reflexivity).
  destruct (b =? 241); [cbn; unfold E_BREAK; split; [exact I1|left; lia]|].
  destruct (ca_op b) as [e|] eqn:He; [|cbn; unfold E_UNDEF; split; [exact I1|left; lia]].
  destruct (ca_op_ok _ _ He) as [Ha Hk]. unfold bind at 1.
  pose proof (proj1 (keeps_run _ _ _ _ _) (keeps_op_param E P s0 Hmem e Ha) s1 I1) as Hp.
  destruct (op_param E e s1) as [k s2|c s2|r|] eqn:H2; auto; [|tauto].
  destruct Hp as (I2 & _ & Hk8). apply op_param_dc in H2. destruct H2 as [D2 Hk2].
  specialize (Hk k Hk8 Hk2).
  destruct (is_prefix (e_op e)) eqn:Hpre.
  - pose proof (prefix_keeps (e_op e) k s2 Hk Hpre I2) as H. destruct (exec E (e_op e) k s2); try contradiction.
    rewrite D2, L1, U1 in H. exact H.
  - pose proof (proj1 (keeps_run _ _ _ _ _) (exec_keeps (e_op e) k Hk Hpre) s2 I2) as H.
    destruct (exec E (e_op e) k s2); auto; [|tauto]. rewrite D2, L1 in H. destruct H as (H & H' & _). split; [exact H|lia].
Qed.
Lemma loop_keeps fuel : forall s, I s -> unused (dc s) < Z.of_nat fuel ->
  match op_loop E fuel s with
  | Ok _ s' => I s' /\ d_ipoff (dc s) + 1 <= d_ipoff (dc s') <= d_ipoff (dc s) + unused (dc s) + 11
  | Err c s' => I s' /\ 2 <= c <= 8 /\ (c = 5 -> pm_div P = true)
  | UB r => pm_ub P r
  | Fuel => False
  end.
Proof.
  induction fuel as [|fuel IH]; intros s Hs Hu; [pose proof (unused_range (dc s)); lia|].
  cbn [op_loop]. pose proof (once_keeps s Hs) as H. pose proof (unused_range (dc s)).
  destruct (op_once E s) as [u s1|c s1|r|]; auto.
  - destruct H. split; [assumption|lia].
  - destruct H as [I1 [Hc|(-> & L & U)]].
    + replace (c =? E_CONTINUE) with false by (unfold E_CONTINUE; lia). auto.
    + change (E_CONTINUE =? E_CONTINUE) with true. cbv iota. specialize (IH s1 I1 ltac:(lia)).
      destruct (op_loop E fuel s1); auto. destruct IH. split; [assumption|lia].
Qed.
End Top.
