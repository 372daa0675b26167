(** End-to-end theorems: interrupts, HLE dispatch, divide faults, RME_CallInt. *)
From Verif Require Import Base Cpu Alu Ops Machine Spec SpecOps SpecOps2 SpecSys PBase PMem PRun PFrame PAlu PExec PIAlu PIAlu2 PShift PStep PIMov PIStack PIJump.

Lemma clear_if_tf f : fclear (M_IF + M_TF) f = put IF_ false (put TF false f).
Proof. flags_eq. Qed.

Lemma flags_cs_swap x y a : a_flags x (a_cs y a) = a_cs y (a_flags x a). Proof. reflexivity. Qed.
Lemma flags_ip_swap x y a : a_flags x (a_ip y a) = a_ip y (a_flags x a). Proof. reflexivity. Qed.

Section WithEnv.
Context (E : env) (base : Z).

Definition frame_a (ret : Z) (a : arch) : arch :=
  push_a base ret (push_a base (r_cs a) (push_a base (r_flags a) a)).
Lemma frame_flat ret a : flat E base a -> flat E base (frame_a ret a).
Proof. intros. unfold frame_a. auto with flat. Qed.
Lemma frame_wf ret a : wf_regs a -> wf_regs (frame_a ret a).
Proof. intros. unfold frame_a. auto with wf. Qed.
Lemma frame_same ret a : flat E base a -> wf_regs a -> same (frame_a ret a) (int_frame ret a).
Proof.
  intros F W. unfold frame_a, int_frame.
  apply same_push16 with (E := E); auto with flat wf.
  apply same_push16 with (E := E); auto with flat wf.
  apply same_push16 with (E := E); auto with flat wf. apply same_refl.
Qed.
Lemma frame_flags ret a : r_flags (frame_a ret a) = r_flags a.
Proof. unfold frame_a. rewrite !push_a_flags. reflexivity. Qed.

Lemma st_pushframe {Y} (k : unit -> M Y) a d g n l : flat E base a -> wf_regs a ->
  (push E getflags ;;; push E (getA r_cs) ;;; push E next_ip ;;; k tt) (mkSt a d g n l) =
  k tt (mkSt (frame_a (low 16 (r_ip a + d_ipoff d)) a) d g n l).
Proof.
  intros F W. rewrite (st_pushflags E base) by auto. rewrite (st_pushcs E base) by auto with flat wf.
  rewrite (st_pushnext E base) by auto with flat wf. rewrite push_a_cs, !push_a_ip. reflexivity.
Qed.

Lemma vec_range n a : 0 <= n < 256 -> flat E base a ->
  inrange 16 (mem 16 a (4 * n)) /\ inrange 16 (mem 16 a (4 * n + 2)).
Proof.
  intros Hn F. replace (4 * n) with (lin 0 (4 * n)) by reflexivity.
  replace (lin 0 (4 * n) + 2) with (lin 0 (4 * n + 2)) by (unfold lin; lia).
  split; (eapply mem_lin_range; eauto with width; unfold inrange; lia).
Qed.


Lemma st_vec {Y} (k : Z -> M Y) a d g c l n : 0 <= n < 256 -> flat E base a ->
  bind (rd E 16 0 (n * 4)) k (mkSt a d g c l) = k (mem 16 a (4 * n)) (mkSt a d g c l).
Proof.
  intros Hn F. rewrite (st_rd E base); auto with width; [|unfold inrange; lia].
  change wrap with low. rewrite low_id by (unfold inrange; lia). replace (lin 0 (n * 4)) with (4 * n) by (unfold lin; lia). reflexivity.
Qed.
Lemma st_vec2 {Y} (k : Z -> M Y) a d g c l n : 0 <= n < 256 -> flat E base a ->
  bind (rd E 16 0 (n * 4 + 2)) k (mkSt a d g c l) = k (mem 16 a (4 * n + 2)) (mkSt a d g c l).
Proof.
  intros Hn F. rewrite (st_rd E base); auto with width; [|unfold inrange; lia].
  change wrap with low. rewrite low_id by (unfold inrange; lia). replace (lin 0 (n * 4 + 2)) with (4 * n + 2) by (unfold lin; lia). reflexivity.
Qed.

(** The three ways a software interrupt can go. *)
Lemma call_interrupt_zero n a d g c l : 0 <= n < 256 -> flat E base a -> vector n a = (0, 0) ->
  call_interrupt E n (mkSt a d g c l) = Err E_BADMEM (mkSt a d g c l).
Proof.
  intros Hn F Hv. unfold call_interrupt. rewrite st_vec, st_vec2 by auto. unfold vector in Hv. injection Hv as -> ->.
  reflexivity.
Qed.
Lemma call_interrupt_hle n a d g c l : 0 <= n < 256 -> flat E base a -> hle_vector n a ->
  call_interrupt E n (mkSt a d g c l) = call_hle E n (mkSt a d g c l).
Proof.
  intros Hn F Hv. unfold call_interrupt. rewrite st_vec, st_vec2 by auto. unfold hle_vector, vector in Hv.
  injection Hv as -> ->. rewrite andb_false_r. rewrite !Z.eqb_refl. reflexivity.
Qed.
Lemma call_interrupt_vec n a d g c l sg o : 0 <= n < 256 -> flat E base a -> wf_regs a ->
  vector n a = (sg, o) -> (sg, o) <> (0, 0) -> (sg, o) <> (47104, n) ->
  call_interrupt E n (mkSt a d g c l) =
  Ok tt (mkSt (a_flags (put IF_ false (put TF false (r_flags a)))
          (a_cs sg (a_ip o (frame_a (low 16 (r_ip a + d_ipoff d)) a)))) (dd_noip true d) g c l).
Proof.
  intros Hn F W Hv H0 Hh. destruct (vec_range n a Hn F) as [R1 R2].
  unfold call_interrupt. rewrite st_vec, st_vec2 by auto. unfold vector in Hv.
  apply pair_equal_spec in Hv. destruct Hv as [Hv1 Hv2]. rewrite Hv1, Hv2 in *.
  replace ((o =? 0) && (sg =? 0)) with false.
  2:{ symmetry. apply not_true_iff_false. intros H. apply H0. f_equal; lia. }
  replace ((sg =? 47104) && (o =? n)) with false.
  2:{ symmetry. apply not_true_iff_false. intros H. apply Hh. f_equal; lia. }
  erewrite (st_pushframe (fun _ => _)) by auto.
  pose proof (frame_flags (low 16 (r_ip a + d_ipoff d)) a) as Hfl.
  generalize dependent (frame_a (low 16 (r_ip a + d_ipoff d)) a). intros fa Hfl.
  rewrite st_set_ip, st_set_cs, st_getflags, st_set_flags.
  tail. rewrite st_dont. cbn [r_flags a_cs a_ip]. rewrite Hfl.
  rewrite clear_if_tf. change wrap with low. rewrite !(low_id 16 o), !(low_id 16 sg) by auto. reflexivity.
Qed.

Lemma int_case bs n : int_number bs = Some n -> bs = [204] /\ n = 3 \/ bs = [205; n] \/ bs = [206] /\ n = 4.
Proof.
  unfold int_number. destruct bs as [|b [|b1 [|? ?]]]; try discriminate.
  all: intros H; repeat (destruct b as [|b|b]; try discriminate H); injection H as <-; auto.
Qed.

Lemma int_dispatch s pre p bs n : fetched E base s pre p bs -> int_number bs = Some n ->
  (bs = [206] -> flag OF (r_flags (ar s)) = true) ->
  0 <= n < 256 /\
  exists o k m, dispatch bs = Some (o, k, m) /\ forall g c l,
    exec1 E o k (mkSt (ar s) (dec_of p (blen pre + m)) g c l) =
    call_interrupt E n (mkSt (ar s) (dec_of p (blen pre + blen bs)) g c l).
Proof.
  intros Hf Hn Hof. destruct (int_case _ _ Hn) as [[-> ->]|[->|[-> ->]]].
  - split; [lia|]. exists OInt3, 0, 1. split; [reflexivity|]. intros. reflexivity.
  - destruct (instr_ctx _ _ _ _ _ _ _ Hf) as (F & W & Hp & C & Hb).
    split; [eapply (code_byte_range E base); eauto|].
    exists OIntI, 0, 1. split; [reflexivity|]. intros. cbn [exec1]. unfold x_int_i.
    erewrite (st_fetch8 E base) by eauto. do 3 f_equal. blia.
  - split; [lia|]. exists OInto, 0, 1. split; [reflexivity|]. intros. cbn [exec1]. unfold x_into.
    rewrite st_getflags, ftest_OF, Hof by reflexivity. reflexivity.
Qed.

Lemma int_instr s pre p bs n sg o : fetched E base s pre p bs -> int_number bs = Some n ->
  (bs = [206] -> flag OF (r_flags (ar s)) = true) ->
  vector n (ar s) = (sg, o) -> (sg, o) <> (0, 0) -> (sg, o) <> (47104, n) ->
  executes_to E s (pre ++ bs) (interrupt sg o (fallthrough (blen (pre ++ bs)) (ar s)) (ar s)).
Proof.
  intros Hf Hn Hof Hv H0 Hh. destruct (int_dispatch _ _ _ _ _ Hf Hn Hof) as (Hr & op & k & m & Hd & Hx).
  pose proof Hf as (R & _ & _). destruct R as [F W _ _].
  eapply fr_abs; [exact Hf|exact Hd| | | |].
  - intros. rewrite Hx. erewrite call_interrupt_vec by eauto. reflexivity.
  - reflexivity.
  - unfold frame_a; auto 12 with flat.
  - unfold interrupt. cbv zeta. rewrite far_eq. cbn [d_ipoff dec_of].
    rewrite flags_cs_swap, flags_ip_swap, cs_ip_swap.
    apply same_a_ip, same_a_cs, same_a_flags. unfold fallthrough. rewrite blen_app. apply frame_same; auto.
Qed.
Lemma int_zero_instr s pre p bs n : fetched E base s pre p bs -> int_number bs = Some n ->
  (bs = [206] -> flag OF (r_flags (ar s)) = true) ->
  vector n (ar s) = (0, 0) -> stops E s E_BADMEM.
Proof.
  intros Hf Hn Hof Hv. destruct (int_dispatch _ _ _ _ _ Hf Hn Hof) as (Hr & op & k & m & Hd & Hx).
  pose proof Hf as (R & _ & _). destruct R as [F W _ _].
  eapply run_stop; [exact Hf|exact Hd| | |].
  - rewrite Hx. apply call_interrupt_zero; auto.
  - discriminate.
  - discriminate.
Qed.
Lemma into_clear_instr s pre p : fetched E base s pre p [206] -> flag OF (r_flags (ar s)) = false ->
  executes E s (pre ++ [206]) (ar s).
Proof.
  intros Hf Hof. pose proof Hf as (R & _ & _). destruct R as [F W _ _].
  frs Hf; [unfold x_into| | | |].
  - rewrite st_getflags, ftest_OF, Hof. reflexivity.
  - reflexivity.
  - auto.
  - reflexivity.
  - apply same_refl.
Qed.
Lemma call_hle_eq f n a d g c l : callbacks E f ->
  call_hle E n (mkSt a d g c l) = Ok tt (mkSt (hle_effect f n a) d g c l).
Proof.
  intros Hc. unfold call_hle, hle_effect. cbn [ar]. destruct (hle a n =? 0); [reflexivity|].
  rewrite Hc. reflexivity.
Qed.
Lemma int_hle_instr f s pre p bs n : callbacks E f -> fetched E base s pre p bs -> int_number bs = Some n ->
  (bs = [206] -> flag OF (r_flags (ar s)) = true) -> hle_vector n (ar s) ->
  flat E base (hle_effect f n (ar s)) ->
  executes_to E s (pre ++ bs)
    (a_ip (low 16 (r_ip (hle_effect f n (ar s)) + blen (pre ++ bs))) (hle_effect f n (ar s))).
Proof.
  intros Hc Hf Hn Hof Hv Hfl. destruct (int_dispatch _ _ _ _ _ Hf Hn Hof) as (Hr & op & k & m & Hd & Hx).
  pose proof Hf as (R & _ & _). destruct R as [F W _ _].
  eapply fr_rel; [exact Hf|exact Hd| | | |].
  - intros. rewrite Hx, call_interrupt_hle by auto. apply call_hle_eq, Hc.
  - reflexivity.
  - auto.
  - rewrite blen_app. apply same_refl.
Qed.

(** IRET as a function of the state. *)
Lemma iret_eq a d g c l : flat E base a -> wf_regs a ->
  exists a', x_iret E (mkSt a d g c l) = Ok tt (mkSt a' (dd_noip true d) g c l) /\ same a' (iret a).
Proof.
  intros F W. unfold x_iret. eexists. split.
  - rewrite (st_popd E base) by auto. xs E base.
    rewrite (st_popd E base) by (auto 12 using drop_flat, drop_wf with flat wf). xs E base.
    rewrite !drop_aip. rewrite (st_popd E base) by (auto using drop_flat, drop_wf with flat wf). xs E base.
    rewrite !drop_acs, !drop_aip, ?top16_acs, ?top16_aip. tail. rewrite st_dont. reflexivity.
  - change wrap with low. rewrite !(low_id 16 (top16 _)) by (apply (top16_range E base); auto using drop_flat, drop_wf).
    unfold iret. cbv zeta. rewrite far_eq. rewrite cs_ip_swap. apply same_refl.
Qed.
(** Executing at B800:n. *)
Lemma hle_entry f s n : callbacks E f -> r_cs (ar s) = 47104 -> r_ip (ar s) = n -> 0 <= n < 256 ->
  flat E base (hle_effect f n (ar s)) -> wf_regs (hle_effect f n (ar s)) ->
  exists s', run_one E s = Ok tt s' /\ same (ar s') (iret (hle_effect f n (ar s))) /\
    icount s' = icount s /\ dbg s' = dbg s /\ lastnull s' = lastnull s.
Proof.
  intros Hc Hcs Hip Hn F W. destruct s as [a d g c l]. cbn [ar icount dbg lastnull] in *.
  destruct (iret_eq _ d g c l F W) as (a' & Hx & Hs).
  unfold run_one. cbn [ar]. rewrite Hcs, Hip. replace ((n =? 65535) && (47104 =? 65535)) with false by lia.
  replace ((47104 =? 47104) && (n <? 256)) with true by lia.
  rewrite (call_hle_eq f) by auto. rewrite Hx. eexists. split; [reflexivity|]. cbn. auto.
Qed.

(** RME_int_CallInt. *)
Lemma int_callint_eq n a d g c l : 0 <= n < 256 -> flat E base a -> wf_regs a ->
  exists a', int_callint E n (mkSt a d g c l) = Ok tt (mkSt a' d g c l) /\ flat E base a' /\
    same a' (enter_int n (r_ip a) a).
Proof.
  intros Hn F W. unfold int_callint. replace ((n <? 0) || (255 <? n)) with false by lia.
  assert (Hfr : flat E base (frame_a (r_ip a) a)) by (apply frame_flat; auto).
  assert (Hsm := frame_same (r_ip a) a F W).
  assert (Hfl := frame_flags (r_ip a) a).
  rewrite (st_pushflags E base) by auto. rewrite (st_pushcs E base) by auto with flat wf.
  rewrite (st_puship E base) by auto with flat wf. rewrite push_a_cs, !push_a_ip. fold (frame_a (r_ip a) a).
  generalize dependent (frame_a (r_ip a) a). intros fa Hfr Hsm Hfl.
  eexists. split; [|split].
  - rewrite st_getflags, st_set_flags, Hfl, clear_if_tf.
    rewrite st_vec by auto with flat. rewrite st_set_ip. rewrite st_vec2 by auto with flat.
    tail. rewrite st_set_cs. reflexivity.
  - auto 12 with flat.
  - unfold enter_int. cbv zeta. unfold vector. rewrite far_eq, cs_ip_swap.
    rewrite !(mem_ext 16 (a_ip _ _) fa) by reflexivity.
    rewrite !(mem_ext 16 (a_flags _ _) fa) by reflexivity.
    rewrite <- !(same_mem _ _ 16 _ Hsm).
    destruct (vec_range n _ Hn Hfr) as [R1 R2]. change wrap with low. rewrite !low_id by auto.
    apply same_a_ip, same_a_cs, same_a_flags, Hsm.
Qed.
Lemma run_fault s pre p bs o k m d' :
  fetched E base s pre p bs -> dispatch bs = Some (o, k, m) ->
  exec1 E o k (mkSt (ar s) (dec_of p (blen pre + m)) (dbg s) (icount s + 1) (lastnull s)) =
    Err E_DIVERR (mkSt (ar s) d' (dbg s) (icount s + 1) (lastnull s)) ->
  faults E s.
Proof.
  intros Hf Hd Hx. pose proof Hf as (R & _ & _). destruct R as [F W _ _].
  pose proof (run_err E base s pre p bs o k m E_DIVERR _ Hf Hd Hx ltac:(discriminate)) as H.
  replace (E_DIVERR =? E_DIVERR) with true in H by reflexivity.
  destruct (int_callint_eq 0 (ar s) d' (dbg s) (icount s + 1) (lastnull s) ltac:(lia) F W) as (a' & Hi & _ & Hs).
  unfold faults. rewrite H, Hi. eexists. split; [reflexivity|]. cbn. auto.
Qed.
(** The same when the handler had already changed something. *)
Lemma run_fault_gen s pre p bs o k m d' a1 :
  fetched E base s pre p bs -> dispatch bs = Some (o, k, m) ->
  exec1 E o k (mkSt (ar s) (dec_of p (blen pre + m)) (dbg s) (icount s + 1) (lastnull s)) =
    Err E_DIVERR (mkSt a1 d' (dbg s) (icount s + 1) (lastnull s)) ->
  flat E base a1 -> wf_regs a1 ->
  exists s', run_one E s = Ok tt s' /\ same (ar s') (enter_int 0 (r_ip a1) a1) /\
    icount s' = icount s + 1 /\ dbg s' = dbg s /\ lastnull s' = lastnull s.
Proof.
  intros Hf Hd Hx F W.
  pose proof (run_err E base s pre p bs o k m E_DIVERR _ Hf Hd Hx ltac:(discriminate)) as H.
  replace (E_DIVERR =? E_DIVERR) with true in H by reflexivity.
  destruct (int_callint_eq 0 a1 d' (dbg s) (icount s + 1) (lastnull s) ltac:(lia) F W) as (a' & Hi & _ & Hs).
  rewrite H, Hi. eexists. split; [reflexivity|]. cbn. auto.
Qed.

(** RME_CallInt. *)
Lemma call_int_bad fuel n s : ~ 0 <= n < 256 ->
  exists s', call_int E fuel n s = Err E_INVAL s' /\ same (ar s') (a_ip 65535 (a_cs 65535 (ar s))) /\
    icount s' = icount s.
Proof.
  intros Hn. unfold call_int, set_cs, set_ip. rewrite !bind_ok with (x := tt) (s' := _) by reflexivity.
  eexists. split; [unfold int_callint, bind; replace ((n <? 0) || (255 <? n)) with true by lia; reflexivity|].
  split; [cbn; apply same_refl|reflexivity].
Qed.
Lemma call_int_enter n s : 0 <= n < 256 -> flat E base (ar s) -> wf_regs (ar s) ->
  exists s1, same (ar s1) (enter_int n 65535 (a_ip 65535 (a_cs 65535 (ar s)))) /\
    icount s1 = icount s /\ dbg s1 = dbg s /\ lastnull s1 = lastnull s /\
    forall f, call_int E f n s = rme_call E f s1.
Proof.
  intros Hn F W. destruct s as [a d g c l]. cbn [ar icount dbg lastnull] in *.
  destruct (int_callint_eq n (a_ip 65535 (a_cs 65535 a)) d g c l Hn) as (a' & Hi & _ & Hs).
  { auto with flat. } { apply wf_ip_upd; [unfold inrange; lia|]. apply wf_cs_upd; [unfold inrange; lia|auto]. }
  exists (mkSt a' d g c l). cbn [ar icount dbg lastnull]. do 4 (split; [auto|]).
  intros fl. unfold call_int. rewrite st_set_cs, st_set_ip.
  change (wrap 16 65535) with 65535. erewrite bind_ok by exact Hi. reflexivity.
Qed.
End WithEnv.
