(** Proofs about the messages of failing instructions (C85): every message of a handler is one of the specification. *)
From Coq Require Import String Ascii.
From Verif Require Import Base Cpu Alu Ops Machine Spec SpecOps SpecOps2 SpecSys SpecRun SpecTop SpecStop SpecEa SpecUb SpecCodes PBase PMem PRun PFrame PAlu PExec PIAlu PIAlu2 PIStack PStep PIInt PKeep PKeep2 PKeep3 PTop PTop2 PTop3 PStop PStop2 PEa PEa2 PEa3 PUb4 PLen PLen2 PCodes Dump SpecDump PDump TraceText SpecTrace PTrace PTrace2 SpecMsgs PMsgs PMsgs2 PMsgs3.
Local Open Scope string_scope.
Local Open Scope Z_scope.

(** ** From the handler back to the instruction *)
Lemma shape bs o k m : (forall b, In b bs -> 0 <= b < 256) -> dispatch bs = Some (o, k, m) ->
  (exists b t e, bs = b :: t /\ m = 1 /\ b <> 15 /\ ca_op b = Some e /\ e_op e = o /\ PMsgs3.row1 b e = true /\ (e_names e = true -> t <> nil /\ k = reg_field t)) \/
  (exists b t e, bs = 15 :: b :: t /\ m = 2 /\ ca_op0F b = Some e /\ e_op e = o /\ PMsgs3.row2 b e = true).
Proof.
  intros Hb Hd. destruct bs as [|b t]; [discriminate|]. unfold dispatch in Hd. destruct (b =? 241); [discriminate|].
  destruct (Z.eqb_spec b 15) as [->|H15].
  - right. destruct t as [|b2 t]; [discriminate|]. destruct (ca_op0F b2) as [e|] eqn:He; [|discriminate]. injection Hd as <- _ <-.
    exists b2, t, e. repeat (split; [reflexivity || assumption|]). apply rows2; auto. apply Hb. right. left. reflexivity.
  - left. destruct (ca_op b) as [e|] eqn:He; [|discriminate]. exists b, t, e. split; [reflexivity|].
    assert (PMsgs3.row1 b e = true) as Hr by (apply rows1; auto; apply Hb; left; reflexivity).
    destruct (e_names e); [destruct t as [|mb t]; [discriminate|]|]; injection Hd as <- <- <-; repeat (split; [reflexivity || assumption|]); intros; try discriminate.
    split; [discriminate|reflexivity].
Qed.
Lemma has_wide1 b t : b <> 15 -> wide_modrm [b] = true -> has_modrm (b :: t) = Some (true, t).
Proof. intros H15 H. rewrite (modrm_more b t H15). unfold wide_modrm in H. destruct (has_modrm [b]) as [[[|] ?]|]; try discriminate. reflexivity. Qed.
Lemma has_wide2 b t : wide_modrm [15; b] = true -> has_modrm (15 :: b :: t) = Some (true, t).
Proof. intros H. rewrite (modrm_more2 b t). unfold wide_modrm in H. destruct (has_modrm [15; b]) as [[[|] ?]|]; try discriminate. reflexivity. Qed.
Lemma word_shape bs o k m : (forall b, In b bs -> 0 <= b < 256) -> dispatch bs = Some (o, k, m) -> word_op o || imul_op o = true ->
  exists t, has_modrm bs = Some (true, t) /\ far_indirect bs = false /\ ((m = 1 /\ exists b, bs = b :: t) \/ (m = 2 /\ exists b, bs = 15 :: b :: t)).
Proof.
  intros Hb Hd Hw. destruct (shape bs o k m Hb Hd) as [(b & t & e & -> & -> & H15 & He & Ho & Hr & _)|(b & t & e & -> & -> & He & Ho & Hr)]; exists t.
  - split; [|split; [|left; eauto]].
    + destruct (word_op o) eqn:Wo.
      * assert (K : PMsgs3.row1 b e = negb (word_op o) || wide_modrm [b]) by (unfold PMsgs3.row1; rewrite Ho; destruct o; try discriminate Wo; reflexivity).
        rewrite K, Wo in Hr. apply has_wide1; assumption.
      * assert (K : b = 105 \/ b = 107) by (unfold PMsgs3.row1 in Hr; rewrite Ho in Hr; destruct o; try discriminate Hw; cbn in Hr; try discriminate Hr; lia).
        destruct K as [->| ->]; reflexivity.
    + cbn [far_indirect]. destruct (Z.eqb_spec b 255) as [->|]; [|reflexivity]. injection He as <-. cbn in Ho. subst o. discriminate Hw.
  - split; [|split; [reflexivity|right; eauto]]. destruct (word_op o) eqn:Wo.
    + assert (K : PMsgs3.row2 b e = negb (word_op o) || wide_modrm [15; b]) by (unfold PMsgs3.row2; rewrite Ho; destruct o; try discriminate Wo; reflexivity).
      rewrite K, Wo in Hr. apply has_wide2; assumption.
    + assert (K : b = 175) by (unfold PMsgs3.row2 in Hr; rewrite Ho in Hr; destruct o; try discriminate Hw; cbn in Hr; try discriminate Hr; lia).
      rewrite K. reflexivity.
Qed.
Lemma one_digit k : 0 <= k < 10 -> dec_text 1 k (fmt_i k).
Proof.
  intros H. assert (k = 0 \/ k = 1 \/ k = 2 \/ k = 3 \/ k = 4 \/ k = 5 \/ k = 6 \/ k = 7 \/ k = 8 \/ k = 9) as K by lia.
  repeat (destruct K as [->|K]); try subst k; (split; [vm_compute; apply le_n|]; split; [discriminate|reflexivity]).
Qed.

Section Msgs4.
Context (E : env) (base : Z) (Pol : polite E) (Q : quiet_host E).

Lemma says_not {X} (m : M X) c s s' : says (fun c' => c' <> c) m -> byte_memory s -> m s = Err c s' -> False.
Proof. intros H Hb Hx. specialize (H s Hb). rewrite Hx in H. destruct H as [H _]. congruence. Qed.
Lemma unary_m_undef k s s' : byte_memory s -> x_unary_m E k s = Err E_UNDEF s' -> k <> 0 /\ k <> 1.
Proof.
  intros Hb Hx. destruct (Z.eq_dec k 0) as [->|]; [|destruct (Z.eq_dec k 1) as [->|]; [|auto]]; exfalso;
    (refine (says_not _ _ _ _ _ Hb Hx); apply says_unary_m; [discriminate|lia]).
Qed.
Lemma unary_mx_undef16 k s s' : byte_memory s -> d_op (dc s) = false -> x_unary_mx E k s = Err E_UNDEF s' -> ~ In k [0; 1; 2; 4; 6].
Proof.
  intros Hb Hd Hx Hk. pose proof (says_unary_mx16 E (fun c => c <> E_UNDEF) ltac:(discriminate) k Hk s Hb Hd) as K. rewrite Hx in K. congruence.
Qed.
Lemma unary_mx_undef32 k s s' : byte_memory s -> d_op (dc s) = true -> x_unary_mx E k s = Err E_UNDEF s' -> ~ In k [0; 1; 6].
Proof.
  intros Hb Hd Hx Hk. pose proof (says_unary_mx32 E (fun c => c <> E_UNDEF) ltac:(discriminate) k Hk s Hb Hd) as K. rewrite Hx in K. congruence.
Qed.
Lemma far_undef k s m s1 s' : byte_memory s -> d_op (dc s) = false -> k = 3 \/ k = 5 -> get_modrm E s = Ok m s1 -> x_unary_mx E k s = Err E_UNDEF s' -> m_mod m = 3.
Proof.
  intros Hb Hd Hk Hm Hx. destruct (Z.eq_dec (m_mod m) 3) as [|N]; [assumption|exfalso].
  pose proof (says_modrm E (fun c => c <> E_UNDEF) ltac:(discriminate) s Hb) as B. rewrite Hm in B. destruct B as (_ & B1 & Mo).
  assert (Hf : forall X (f : Z * Z -> M X), bind (parse_farptr E) f s = bind (so <- get_mmm E m ;; ip <- rd E 16 (fst so) (snd so) ;; cs <- rd E 16 (fst so) (snd so + 2) ;; ret (cs, ip)) f s1).
  { intros X f. unfold parse_farptr. unfold bind at 1. unfold bind at 1. rewrite Hm. destruct (Z.eqb_spec (m_mod m) 3); [contradiction|]. reflexivity. }
  unfold x_unary_mx in Hx. unfold bind at 1, getD, gets in Hx. rewrite Hd in Hx.
  destruct Hk as [->| ->]; rewrite Hf in Hx; (refine (says_not _ _ _ _ _ B1 Hx); apply says_bind; [apply says_far; auto; discriminate|intros ci; apply says_far_call || apply says_far_jump; discriminate]).
Qed.
(** *** ENTER *)
Lemma code_from_take a o s t : code_from a o (s ++ t)%list -> code_from a o s.
Proof.
  intros (H1 & H2 & H3). split; [exact H1|]. split; [unfold blen in *; rewrite app_length in H2; lia|]. intros i b Hi. apply H3. rewrite nth_error_app1; [exact Hi|].
  apply nth_error_Some. congruence.
Qed.
Lemma enter_loop_narrow n : forall s, d_op (dc s) = false -> byte_memory s ->
  match enter_loop E n s with Err c _ => c = E_BADMEM | Ok _ s' => d_op (dc s') = false /\ byte_memory s' | _ => True end.
Proof.
  induction n as [|n IH]; intros s Hd Hb; [split; [exact Hd|exact Hb]|].
  pose proof (says_enter_step E (fun c => c = E_BADMEM) eq_refl s Hb) as K.
  assert (R : enter_loop E (S n) s = bind (bp <- getW R_BP ;; setW R_BP (bp - 2) ;;; ss <- getA r_ss ;; bp' <- getW R_BP ;; v <- rd E 16 ss bp' ;; push E (ret v)) (fun _ => enter_loop E n) s).
  { cbn [enter_loop]. unfold bind at 1, getD, gets. rewrite Hd. unfold bind. repeat match goal with |- context [match ?m ?x with _ => _ end] => destruct (m x); try reflexivity end. }
  rewrite R. unfold bind at 1. 
  assert (D : forall u s', (bp <- getW R_BP ;; setW R_BP (bp - 2) ;;; ss <- getA r_ss ;; bp' <- getW R_BP ;; v <- rd E 16 ss bp' ;; push E (ret v)) s = Ok u s' -> dc s' = dc s).
  { intros u s'. unfold push, bind, getW, get_gpr, getA, getf, gets, setW, set_gpr, upd_ar, modify, ret. 
    destruct (rd E 16 _ _ _) as [v s1| | |] eqn:H1; try discriminate. apply rd_st in H1. subst s1. intros H. apply wr_st in H. apply H. }
  destruct ((bp <- getW R_BP ;; setW R_BP (bp - 2) ;;; ss <- getA r_ss ;; bp' <- getW R_BP ;; v <- rd E 16 ss bp' ;; push E (ret v)) s) as [u s'|c s'|r|] eqn:Hs; [|apply K|exact I|exact I].
  destruct K as (_ & K & _). apply IH; [|exact K]. rewrite (D _ _ eq_refl). exact Hd.
Qed.
Lemma enter_undef a p off g n l s0 s1 level t c s' : flat E base a -> wf_regs a -> byte_memory (mkSt a (dec_of p off) g n l) -> code_from a off (s0 :: s1 :: level :: t) ->
  x_enter E (mkSt a (dec_of p off) g n l) = Err c s' ->
  (c = E_UNDEF -> p_os p = true /\ 2 <= level mod 32).
Proof.
  intros F W Hb C Hx ->. revert Hx. unfold x_enter.
  assert (W16 : width 16) by auto with width.
  change (fetch16 E) with (fetch E 16).
  rewrite (st_fetch E base 16 _ a p off g n l [s0; s1] (s0 + 256 * s1) F W W16 (code_from_take _ _ [s0; s1] (level :: t) C) eq_refl).
  pose proof (code_from_app a off [s0; s1] (level :: t) C) as C2.
  rewrite (st_fetch8 E base _ a p _ g n l level t F W C2). cbv zeta. set (off' := off + blen [s0; s1] + 1).
  pose proof (says_enter_start E (fun c => c <> E_UNDEF) ltac:(discriminate) (mkSt a (dec_of p off') g n l) Hb) as B.
  intros Hx.
  rewrite (st_pushW E base) in Hx by (auto; unfold R_BP; lia).
  assert (P : push E (getW R_BP) (mkSt a (dec_of p off') g n l) = Ok tt (mkSt (push_a base (pushed R_BP a) a) (dec_of p off') g n l)).
  { pose proof (st_pushW E base R_BP (fun u => ret u) a (dec_of p off') g n l F W ltac:(unfold R_BP; lia)) as K. unfold bind in K. destruct (push E (getW R_BP) _) as [[]| | |]; exact K. }
  rewrite P in B. destruct B as (_ & B1 & _). revert Hx B1. set (st1 := mkSt (push_a base (pushed R_BP a) a) (dec_of p off') g n l). intros Hx B1.
  assert (Hd1 : d_op (dc st1) = p_os p) by reflexivity. generalize dependent st1. clear P C2 C Hb. intros st1 Hx B1 Hd1.
  unfold bind at 1 in Hx. change (getW R_SP st1) with (Ok (getf (32 * R_SP) 16 (gprs (ar st1))) st1) in Hx. cbv beta iota in Hx.
  destruct (Z.ltb_spec 1 (level mod 32)) as [Hl|Hl]; [|discriminate Hx]. split; [|lia]. destruct (p_os p); [reflexivity|exfalso].
  assert (R : forall ft size, ((enter_loop E (Z.to_nat (level mod 32 - 1)) ;;; o <- getD d_op ;; (if o then ret tt else push E (ret ft))) ;;; setW R_BP ft ;;; sp <- getW R_SP ;; setW R_SP (sp - size)) st1 =
    match enter_loop E (Z.to_nat (level mod 32 - 1)) st1 with
    | Ok _ s2 => if d_op (dc s2) then (setW R_BP ft ;;; sp <- getW R_SP ;; setW R_SP (sp - size)) s2 else (push E (ret ft) ;;; setW R_BP ft ;;; sp <- getW R_SP ;; setW R_SP (sp - size)) s2
    | Err c s2 => Err c s2 | UB r => UB r | Fuel => Fuel end).
  { intros ft size. unfold bind at 1. unfold bind at 1. destruct (enter_loop E _ st1) as [u s2| | |]; try reflexivity. unfold bind at 1. unfold getD, gets. destruct (d_op (dc s2)); reflexivity. }
  rewrite R in Hx. pose proof (enter_loop_narrow (Z.to_nat (level mod 32 - 1)) st1 Hd1 B1) as K.
  destruct (enter_loop E _ st1) as [u s2|c2 s2| |]; try discriminate Hx.
  - destruct K as [K1 K2]. rewrite K1 in Hx. refine (says_not _ _ _ _ _ K2 Hx). apply says_enter_end. discriminate.
  - injection Hx as -> _. discriminate K.
Qed.
End Msgs4.
