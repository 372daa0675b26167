(** Register reports of the testers; the redraw timer's progress. *)
From Coq Require Import String Ascii.
From Verif Require Import Base Cpu Machine Native Native2 Native3 Spec SpecTop SpecRun SpecNative3 PBase PGui PTop2 PSmall.
Local Open Scope Z_scope.

Fixpoint assoc (ns : list string) (vs : list Z) (n : string) : Z :=
  match ns, vs with m :: ns', v :: vs' => if String.eqb n m then v else assoc ns' vs' n | _, _ => 0 end.
Lemma check_prev ns : forall ps cs, length ps = length ns -> length cs = length ns -> snd (check_regs ns ps cs) = cs.
Proof.
  induction ns as [|n ns IH]; intros [|p ps] [|c cs] H1 H2; try discriminate; [reflexivity|]. cbn [check_regs]. cbn [length] in *. specialize (IH ps cs ltac:(lia) ltac:(lia)).
  destruct (check_regs ns ps cs) as [l q]. cbn [snd] in IH. subst q. destruct (Z.eqb_spec p c) as [->|]; reflexivity.
Qed.
Lemma check_none ns : forall ps cs n, ~ In n ns -> lookup n (fst (check_regs ns ps cs)) = None.
Proof.
  induction ns as [|m ns IH]; intros [|p ps] [|c cs] n H; try reflexivity. cbn [check_regs]. cbn [In] in H. specialize (IH ps cs n ltac:(tauto)).
  destruct (check_regs ns ps cs) as [l q]. cbn [fst] in IH. destruct (p =? c); cbn [fst]; [exact IH|]. cbn [lookup]. destruct (String.eqb_spec m n); [subst; tauto|exact IH].
Qed.
Lemma check_lookup ns : NoDup ns -> forall ps cs n, length ps = length ns -> length cs = length ns -> In n ns ->
  lookup n (fst (check_regs ns ps cs)) = if assoc ns ps n =? assoc ns cs n then None else Some (assoc ns ps n, assoc ns cs n).
Proof.
  induction 1 as [|m ns Hm _ IH]; intros [|p ps] [|c cs] n H1 H2 Hn; try discriminate; [contradiction|]. cbn [check_regs assoc]. cbn [length] in *.
  pose proof (check_none ns ps cs m Hm) as Hnone. specialize (IH ps cs n ltac:(lia) ltac:(lia)).
  destruct (check_regs ns ps cs) as [l q]. cbn [fst] in *. destruct (String.eqb_spec n m) as [->|N].
  - destruct (Z.eqb_spec p c) as [->|]; cbn [fst]; [exact Hnone|]. cbn [lookup]. rewrite String.eqb_refl. reflexivity.
  - cbn [In] in Hn. specialize (IH ltac:(destruct Hn; [congruence|assumption])). destruct (p =? c); cbn [fst]; [exact IH|]. cbn [lookup]. destruct (String.eqb_spec m n); [congruence|exact IH].
Qed.
Lemma names_nodup : NoDup reg_names.
Proof. unfold reg_names. repeat (constructor; [cbn [In]; intuition discriminate|]). constructor. Qed.
Lemma named_assoc a n : named a n = assoc reg_names (regs_of a) n.
Proof.
  unfold named, reg_names, regs_of. cbn [assoc]. rewrite !reg_getf by (unfold width; lia). reflexivity.
Qed.
Lemma zero_assoc n : assoc reg_names prev0 n = 0.
Proof. unfold reg_names, prev0. cbn [repeat assoc]. repeat (destruct (String.eqb _ _); [reflexivity|]). reflexivity. Qed.
(** One report: the registers that differ from [prev], with their values. *)
Definition reports (old new : string -> Z) (r : list (string * Z * Z)) : Prop :=
  forall n, lookup n r = if old n =? new n then None else Some (old n, new n).
Lemma named_out a n : ~ In n reg_names -> named a n = 0.
Proof.
  intros H. unfold named. cbn [reg_names In] in H.
  repeat match goal with |- context [String.eqb n ?m] => destruct (String.eqb_spec n m) as [->|]; [exfalso; apply H; tauto|] end. reflexivity.
Qed.
Lemma in_names n : In n reg_names \/ ~ In n reg_names.
Proof. destruct (in_dec string_dec n reg_names); auto. Qed.
Lemma assoc_out ns : forall vs n, ~ In n ns -> assoc ns vs n = 0.
Proof.
  induction ns as [|m ns IH]; intros [|v vs] n H; try reflexivity. cbn [assoc]. cbn [In] in H. destruct (String.eqb_spec n m) as [->|]; [exfalso; apply H; tauto|]. apply IH. tauto.
Qed.
Lemma check_reports prev a : length prev = 14%nat -> reports (assoc reg_names prev) (named a) (fst (check_regs reg_names prev (regs_of a))).
Proof.
  intros H n. destruct (in_names n) as [I|N].
  - rewrite (check_lookup reg_names names_nodup) by (try assumption; reflexivity). rewrite named_assoc. reflexivity.
  - rewrite check_none by exact N. rewrite named_out, assoc_out by exact N. reflexivity.
Qed.
Section Run.
Context (E : env).
Definition chatty (n : nat) (s : st) : Prop := forall j t, (j <= n)%nat -> runs E j s t -> 1 <= dbg t.
Lemma chatty_step n s t : chatty (S n) s -> run_one E s = Ok tt t -> 1 <= dbg t /\ chatty n t.
Proof.
  intros C H. split.
  - apply (C 1%nat); [lia|]. econstructor; [exact H|constructor].
  - intros j u Hj R. apply (C (S j)); [lia|]. econstructor; [exact H|exact R].
Qed.
Lemma reports_at k : forall s prev s1 s2 fuel, chatty (S k) s -> length prev = 14%nat -> runs E k s s1 -> run_one E s1 = Ok tt s2 -> (k < fuel)%nat ->
  exists r, nth_error (reg_reports E fuel prev s) k = Some r /\ reports (match k with O => assoc reg_names prev | S _ => named (ar s1) end) (named (ar s2)) r.
Proof.
  induction k as [|k IH]; intros s prev s1 s2 fuel C L R H F; destruct fuel as [|fuel]; try lia.
  - inversion R; subst. cbn [reg_reports]. rewrite H. destruct (chatty_step _ _ _ C H) as [D2 _]. replace (1 <=? dbg s2) with true by lia.
    pose proof (check_reports prev (ar s2) L) as K. destruct (check_regs reg_names prev (regs_of (ar s2))) as [l q]. exists l. split; [reflexivity|exact K].
  - inversion R as [|? ? t ? Ht Rt]; subst. cbn [reg_reports]. rewrite Ht. destruct (chatty_step _ _ _ C Ht) as [Dt Ct]. replace (1 <=? dbg t) with true by lia.
    pose proof (check_prev reg_names prev (regs_of (ar t)) L eq_refl) as Kq. destruct (check_regs reg_names prev (regs_of (ar t))) as [l q]. cbn [snd] in Kq. subst q. cbn [nth_error].
    destruct (IH t (regs_of (ar t)) s1 s2 fuel Ct eq_refl Rt H ltac:(lia)) as (r & Hr & Kr). exists r. split; [exact Hr|].
    destruct k as [|k]; [|exact Kr]. inversion Rt; subst. intros n. rewrite named_assoc. apply Kr.
Qed.
(** Replaying the reports gives the registers. *)
Lemma replay prev fuel : forall s s1 k, chatty (S k) s -> length prev = 14%nat -> runs E (S k) s s1 -> (k < fuel)%nat -> forall f, (forall n, f n = assoc reg_names prev n) -> forall n,
  fold_left (fun g r => apply_report r g) (firstn (S k) (reg_reports E fuel prev s)) f n = named (ar s1) n.
Proof.
  revert prev. induction fuel as [|fuel IH]; intros prev s s1 k C L R F f Hf n; [lia|]. inversion R as [|? ? t ? Ht Rt]; subst. cbn [reg_reports]. rewrite Ht. destruct (chatty_step _ _ _ C Ht) as [Dt Ct]. replace (1 <=? dbg t) with true by lia.
  pose proof (check_prev reg_names prev (regs_of (ar t)) L eq_refl) as Kq. pose proof (check_reports prev (ar t) L) as K. destruct (check_regs reg_names prev (regs_of (ar t))) as [l q]. cbn [snd fst] in *. subst q. cbn [firstn fold_left].
  assert (A : forall m, apply_report l f m = named (ar t) m).
  { intros m. unfold apply_report. rewrite (K m), <- Hf. destruct (Z.eqb_spec (f m) (named (ar t) m)) as [e|_]; [exact e|reflexivity]. }
  destruct k as [|k].
  - inversion Rt; subst. cbn [firstn fold_left]. apply A.
  - apply (IH (regs_of (ar t)) t s1 k); try assumption; try lia; [reflexivity|]. intros m. rewrite A. apply named_assoc.
Qed.
Lemma polite_chatty n s : polite E -> wf_state s -> 1 <= dbg s -> chatty n s.
Proof.
  intros P W D j t _ R. revert W D. induction R as [s|j s u t Hr _ IH]; intros W D; [exact D|].
  pose proof (run_one_general E P s W) as G. rewrite Hr in G. destruct G as (G & _). apply IH; [apply G|]. rewrite (sc_dbg _ _ (ge_config _ _ G)). exact D.
Qed.
Lemma silent fuel : forall s prev, (forall j t, runs E j s t -> dbg t < 1) -> reg_reports E fuel prev s = [].
Proof.
  induction fuel as [|k IH]; intros s prev H; [reflexivity|]. cbn [reg_reports]. destruct (run_one E s) as [[] s'| | |] eqn:Hr; try reflexivity.
  replace (1 <=? dbg s') with false by (pose proof (H 1%nat s' ltac:(econstructor; [exact Hr|constructor])); lia). apply IH. intros j t R. apply (H (S j)). econstructor; [exact Hr|exact R].
Qed.
End Run.

(** ** Progress of the redraw timer *)
Lemma gui_runs_trans full a b c : gui_runs full a b -> gui_runs full b c -> gui_runs full a c.
Proof. intros H1 H2. induction H2 as [g|g g1 g2 _ IH S]; [exact H1|]. econstructor; [apply IH, H1|exact S]. Qed.
Lemma gui_one full a b : gui_step full a b -> gui_runs full a b.
Proof. intros H. econstructor; [constructor|exact H]. Qed.
Lemma draw_from full f q t r : exists g', gui_runs full (mkGui f q t PRedraw r) g' /\ redraws g' = S r.
Proof. eexists. split; [apply gui_one; apply (gs_draw full (mkGui f q t PRedraw r)); reflexivity|reflexivity]. Qed.
Lemma take_from full f q t r : exists g', gui_runs full (mkGui f (S q) t PIdle r) g' /\ redraws g' = S r.
Proof.
  destruct (draw_from full f q t r) as (g' & R & K). exists g'. split; [|exact K]. eapply gui_runs_trans; [apply gui_one; apply (gs_take full (mkGui f (S q) t PIdle r) q); reflexivity|exact R].
Qed.
Lemma push_from full f q r : exists g', gui_runs full (mkGui f q TMarked PIdle r) g' /\ redraws g' = S r.
Proof.
  destruct (take_from full f q TIdle r) as (g' & R & K). exists g'. split; [|exact K]. eapply gui_runs_trans; [apply gui_one; apply (gs_push full (mkGui f q TMarked PIdle r)); reflexivity|exact R].
Qed.
Lemma mark_from full f q r : exists g', gui_runs full (mkGui f q TSeen PIdle r) g' /\ redraws g' = S r.
Proof.
  destruct (push_from full true q r) as (g' & R & K). exists g'. split; [|exact K]. eapply gui_runs_trans; [apply gui_one; apply (gs_mark full (mkGui f q TSeen PIdle r)); reflexivity|exact R].
Qed.
Lemma see_from full q r : exists g', gui_runs full (mkGui false q TIdle PIdle r) g' /\ redraws g' = S r.
Proof.
  destruct (mark_from full false q r) as (g' & R & K). exists g'. split; [|exact K]. eapply gui_runs_trans; [apply gui_one; apply (gs_see full (mkGui false q TIdle PIdle r)); reflexivity|exact R].
Qed.
Lemma idle_from full f q t r : full = false -> gui_inv full (mkGui f q t PIdle r) -> exists g', gui_runs full (mkGui f q t PIdle r) g' /\ redraws g' = S r.
Proof.
  intros Hf (I1 & I2 & I3). unfold outstanding in *. cbn [busy queued tpc mpc] in *. destruct q as [|q]; [|apply take_from]. destruct t; [|apply mark_from|apply push_from].
  destruct f; [|apply see_from]. specialize (I3 Hf eq_refl). lia.
Qed.
Theorem gui_live g : gui_runs false gui0 g -> exists g', gui_runs false g g' /\ redraws g' = S (redraws g).
Proof.
  intros R. pose proof (gui_inv_runs false g R) as I. destruct g as [f q t m r]. cbn [redraws]. destruct m; [apply idle_from; [reflexivity|exact I]|apply draw_from|].
  assert (S1 : gui_step false (mkGui f q t PClear r) (mkGui false q t PIdle r)) by (apply (gs_clear false (mkGui f q t PClear r)); reflexivity).
  destruct (idle_from false false q t r eq_refl (gui_inv_step _ _ _ S1 I)) as (g' & R' & K). exists g'. split; [|exact K]. eapply gui_runs_trans; [apply gui_one, S1|exact R'].
Qed.
(** After one refused request nothing is ever drawn again. *)
Definition lost : gui_st := mkGui true 0 TIdle PIdle 0.
Theorem lost_reached : gui_runs true gui0 lost.
Proof.
  eapply gui_runs_trans; [apply gui_one; apply (gs_see true gui0); reflexivity|]. eapply gui_runs_trans; [apply gui_one; apply (gs_mark true); reflexivity|]. apply gui_one. apply (gs_lost true (mkGui true 0 TMarked PIdle 0)); reflexivity.
Qed.
Theorem lost_stuck g : gui_runs true lost g -> g = lost.
Proof.
  intros H. remember lost as a eqn:Ea. induction H as [g|g g1 g2 _ IH S]; [exact eq_refl|]. specialize (IH Ea). subst g1 g. unfold lost in S. inversion S; subst; cbn in *; try discriminate; reflexivity.
Qed.
