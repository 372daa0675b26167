(** Which instructions are refused, on a contiguous memory: a walk over the handlers in which memory accesses do not fail. *)
From Coq Require Import String Ascii.
From Verif Require Import Base Cpu Alu Ops Machine Spec SpecOps SpecOps2 SpecSys SpecRun SpecTop SpecStop SpecEa SpecUb SpecCodes PBase PMem PRun PFrame PAlu PExec PIAlu PIAlu2 PIStack PStep PIInt PKeep PKeep2 PKeep3 PTop PTop2 PTop3 PStop PStop2 PCodes PMsgs3.
Local Open Scope Z_scope.

Section Refuse.
Context (E : env).
(** No access is refused: every block of the map is usable. *)
Definition open_map (a : arch) : Prop := forall b, 0 <= b < 272 -> null_check E && negb (zero_null_ok E && (b =? 0)) && (mtab a b =? 0) = false.
Definition J (s : st) : Prop := byte_memory s /\ open_map (ar s).
Lemma flat_open base a : flat E base a -> open_map a.
Proof.
  intros [H0 H1 H2 _] b Hb. rewrite (H2 b Hb). destruct (null_check E) eqn:Hn; [|reflexivity]. destruct (Z.eqb_spec (base + 4096 * b) 0) as [Hz|]; [|rewrite andb_false_r; reflexivity].
  assert (b = 0) as -> by lia. assert (base = 0) as -> by lia. rewrite (H1 eq_refl eq_refl). reflexivity.
Qed.
Section Says.
Context (L : Z -> Prop).
Definition saysv {X} (P : X -> Prop) (m : M X) : Prop := forall s, J s ->
  match m s with Ok x s' => lastnull s' = lastnull s /\ J s' /\ P x | Err c s' => L c /\ lastnull s' = lastnull s /\ J s' | _ => True end.
Definition says {X} (m : M X) : Prop := saysv (fun _ => True) m.
Lemma says_bindv {X Y} P (m : M X) (f : X -> M Y) : saysv P m -> (forall x, P x -> says (f x)) -> says (bind m f).
Proof.
  intros H1 H2 s Hb. unfold bind. specialize (H1 s Hb). destruct (m s) as [x s'|c s'|r|]; auto. destruct H1 as (Hl & Hb' & HP).
  specialize (H2 x HP s' Hb'). destruct (f x s'); auto; [|destruct H2 as (? & ? & ?); split; [assumption|]; split; [congruence|assumption]]. destruct H2 as (? & ? & ?). split; [congruence|auto].
Qed.
Lemma says_bind {X Y} (m : M X) (f : X -> M Y) : says m -> (forall x, says (f x)) -> says (bind m f).
Proof. intros H1 H2. eapply says_bindv; [exact H1|]. auto. Qed.
Lemma says_ret {X} (x : X) : says (ret x). Proof. intros s Hb. split; [reflexivity|]. auto. Qed.
Lemma says_err {X} c : L c -> says (@err X c). Proof. intros H s Hb. split; [exact H|]. split; [reflexivity|exact Hb]. Qed.
Lemma says_undef {X} r : says (@undef X r). Proof. intros s Hb. exact I. Qed.
Lemma says_fuel {X} : says (fun _ => @Fuel X). Proof. intros s Hb. exact I. Qed.
Lemma says_getA {X} (f : arch -> X) : says (getA f). Proof. intros s Hb. split; [reflexivity|]. auto. Qed.
Lemma says_getD {X} (f : dec -> X) : says (getD f). Proof. intros s Hb. split; [reflexivity|]. auto. Qed.
Lemma says_upd_ar f : (forall a, hmem (f a) = hmem a /\ mtab (f a) = mtab a) -> says (upd_ar f).
Proof. intros H s [Hb Hm]. destruct (H (ar s)) as [H1 H2]. split; [reflexivity|]. split; [|exact I]. split; [intros x b; cbn [upd_ar modify set_ar ar]; rewrite H1; apply Hb|]. unfold open_map. cbn [upd_ar modify set_ar ar]. rewrite H2. exact Hm. Qed.
Lemma says_upd_dc f : says (upd_dc f). Proof. intros s Hb. split; [reflexivity|]. auto. Qed.
Lemma says_hload w p : says (hload w p). Proof. intros s Hb. unfold hload. destruct (load_bytes _ _ _); [split; [reflexivity|auto]|exact I]. Qed.
Lemma store_range n : forall p v m, (forall x b, m x = Some b -> 0 <= b < 256) -> forall x b, store_bytes n p v m x = Some b -> 0 <= b < 256.
Proof. intros p v m Hm x b. unfold store_bytes. destruct (_ && _); [|apply Hm]. intros [= <-]. apply Z.mod_pos_bound. lia. Qed.
Lemma says_hstore w p v : says (hstore w p v).
Proof. intros s [Hb Hm]. unfold hstore. destruct (valid_bytes _ _ _); [|exact I]. split; [reflexivity|]. split; [|exact I]. split; [|exact Hm]. intros x b. cbn [set_ar ar a_hmem hmem]. apply store_range. exact Hb. Qed.
Lemma says_getptr sg o : says (getptr E sg o).
Proof.
  intros s Hb. unfold getptr. cbv zeta. destruct (Z.ltb_spec (wrap 32 (sg * 16 + o) / 4096) 272); [|exact I]. rewrite (proj2 Hb); [split; [reflexivity|auto]|].
  split; [|assumption]. apply Z.div_pos; [|lia]. apply Z.mod_pos_bound. reflexivity.
Qed.
Lemma says_getseg c : says (getseg c). Proof. intros s Hb. unfold getseg. destruct (sreg_of _ _); [split; [reflexivity|auto]|exact I]. Qed.
Lemma says_chkseg c : says (chkseg c). Proof. intros s Hb. unfold chkseg. destruct (sreg_of _ _); [split; [reflexivity|auto]|exact I]. Qed.
Lemma sreg_set_mem c v a a' : sreg_set c v a = Some a' -> hmem a' = hmem a /\ mtab a' = mtab a.
Proof. unfold sreg_set. repeat (match goal with |- context [match ?x with _ => _ end] => destruct x end); try discriminate; intros [= <-]; split; reflexivity. Qed.
Lemma says_setseg c v : says (setseg c v).
Proof. intros s [Hb Hm]. unfold setseg. destruct (sreg_set _ _ _) as [a|] eqn:K; [|exact I]. destruct (sreg_set_mem _ _ _ _ K) as [K1 K2]. split; [reflexivity|]. split; [|exact I]. split; [intros x b; cbn [set_ar ar]; rewrite K1; apply Hb|]. unfold open_map. cbn [set_ar ar]. rewrite K2. exact Hm. Qed.
Lemma says_set_gpr p w v : says (set_gpr p w v). Proof. apply says_upd_ar. split; reflexivity. Qed.
Lemma says_load w p : says (load w p). Proof. destruct p; [apply says_getA|apply says_hload]. Qed.
Lemma says_store w p v : says (store w p v). Proof. destruct p; [apply says_set_gpr|apply says_hstore]. Qed.
Lemma says_io_in w p : says (io_in E w p). Proof. intros s Hb. split; [reflexivity|]. split; [exact Hb|exact I]. Qed.
Lemma says_io_out w p v : says (io_out w p v). Proof. intros s Hb. split; [reflexivity|]. split; [exact Hb|exact I]. Qed.
Ltac sstep :=
  lazymatch goal with
  | |- says (bind _ _) => apply says_bind; [|intros ?]
  | |- says (ret _) => apply says_ret
  | |- says (err _) => apply says_err; first [assumption|auto]
  | |- says (undef _) => apply says_undef
  | |- says (getA _) => apply says_getA
  | |- says (getD _) => apply says_getD
  | |- says (upd_ar _) => apply says_upd_ar; split; reflexivity
  | |- says (upd_dc _) => apply says_upd_dc
  | |- says (hload _ _) => apply says_hload
  | |- says (hstore _ _ _) => apply says_hstore
  | |- says (getptr _ _ _) => apply says_getptr
  | |- says (getseg _) => apply says_getseg
  | |- says (chkseg _) => apply says_chkseg
  | |- says (setseg _ _) => apply says_setseg
  | |- says (load _ _) => apply says_load
  | |- says (store _ _ _) => apply says_store
  | |- says (io_in _ _ _) => apply says_io_in
  | |- says (io_out _ _ _) => apply says_io_out
  | |- says (if ?b then _ else _) => destruct b
  | |- says (let '(_, _) := ?e in _) => destruct e
  | |- says (match ?e with _ => _ end) => destruct e
  | |- says (let _ := _ in _) => cbv zeta
  | |- says (set_gpr _ _ _) => apply says_set_gpr
  | |- says (setW _ _) => apply says_set_gpr
  | |- says (setL _ _) => apply says_set_gpr
  | |- says (setH _ _) => apply says_set_gpr
  | |- says (set_ip _) => apply says_upd_ar; split; reflexivity
  | |- says (set_cs _) => apply says_upd_ar; split; reflexivity
  | |- says (set_flags _) => apply says_upd_ar; split; reflexivity
  | |- says (get_gpr _ _) => apply says_getA
  | |- says (getW _) => apply says_getA
  | |- says (getDw _) => apply says_getA
  | |- says (getL _) => apply says_getA
  | |- says (getH _) => apply says_getA
  | |- says getflags => apply says_getA
  | |- says next_ip => unfold next_ip
  | |- says dont_change_ip => apply says_upd_dc
  | |- says opw => unfold opw
  | |- says (upd_flags _) => unfold upd_flags
  end.
Ltac swalk := repeat sstep.

Lemma says_rd w sg o : says (rd E w sg o). Proof. unfold rd. swalk. Qed.
Lemma says_wr w sg o v : says (wr E w sg o v). Proof. unfold wr. swalk. Qed.
Ltac sstep1 := lazymatch goal with |- says (rd _ _ _ _) => apply says_rd | |- says (wr _ _ _ _ _) => apply says_wr | _ => sstep end.
Lemma says_fetch w : says (fetch E w). Proof. unfold fetch. repeat sstep1. Qed.
Lemma says_fetch8s : says (fetch8s E). Proof. unfold fetch8s. apply says_bind; [apply says_fetch|intros; apply says_ret]. Qed.
Definition modrm_ok (m : modrm) : Prop := 0 <= m_mod m < 4 /\ 0 <= m_mmm m < 8.
Lemma says_modrm : saysv modrm_ok (get_modrm E).
Proof.
  intros s Hb. pose proof (says_fetch 8 s Hb) as H. unfold get_modrm, fetch8, bind. unfold fetch, rd in *.
  unfold bind, getA, getD, gets in *. destruct (getptr E _ _ s) as [p s1|c s1|r|] eqn:Ep; try exact H. unfold hload in *.
  destruct (load_bytes (nbytes 8) (hmem (ar s1)) p) as [v|] eqn:El; [|exact I]. destruct H as (H1 & H2 & _). cbn in H1, H2 |- *. split; [exact H1|]. split; [exact H2|].
  assert (Hb1 : J s1). { pose proof (says_getptr (r_cs (ar s)) (wrap 16 (r_ip (ar s) + d_ipoff (dc s))) s Hb) as Hg. rewrite Ep in Hg. apply Hg. }
  assert (0 <= v < 256). { change (nbytes 8) with 1%nat in El. cbn [load_bytes] in El. destruct (hmem (ar s1) p) as [b|] eqn:K; [|discriminate]. apply (proj1 Hb1) in K. injection El as <-. lia. }
  unfold modrm_ok, modrm_of. cbn [m_mod m_mmm]. lia.
Qed.
Lemma says_get_modrm : says (get_modrm E). Proof. intros s Hb. pose proof (says_modrm s Hb) as H. destruct (get_modrm E s); auto. destruct H as (? & ? & ?). auto. Qed.
Lemma says_push v : says v -> says (push E v).
Proof. intros. unfold push. repeat (first [assumption|sstep1]). Qed.
Lemma says_pop : says (pop E). Proof. unfold pop. repeat sstep1. Qed.
Ltac sstep2 :=
  lazymatch goal with
  | |- says (fetch8 _) => apply says_fetch
  | |- says (fetch16 _) => apply says_fetch
  | |- says (fetch32 _) => apply says_fetch
  | |- says (fetch _ _) => apply says_fetch
  | |- says (fetch8s _) => apply says_fetch8s
  | |- says (get_modrm _) => apply says_get_modrm
  | |- says (push _ _) => apply says_push
  | |- says (pop _) => apply says_pop
  | _ => sstep1
  end.
Lemma says_ea m b : says (ea_segment m b). Proof. unfold ea_segment. repeat sstep2. Qed.
Lemma says_dofunc m b d : 0 <= m < 8 -> says (dofunc E m b d).
Proof.
  intros Hm. unfold dofunc. apply says_bind; [apply says_ea|intros]. apply says_bind; [|intros; apply says_ret].
  assert (K : m = 0 \/ m = 1 \/ m = 2 \/ m = 3 \/ m = 4 \/ m = 5 \/ m = 6 \/ m = 7) by lia. destruct K as [->|[->|[->|[->|[->|[->|[->| ->]]]]]]]; cbv beta iota; repeat sstep2.
Qed.
Lemma says_dofunc32 m b d : 0 <= m < 8 -> says (dofunc32 E m b d).
Proof.
  intros Hm. unfold dofunc32. apply says_bind; [apply says_ea|intros]. apply says_bind; [|intros; apply says_ret]. unfold sib_index.
  assert (K : m = 0 \/ m = 1 \/ m = 2 \/ m = 3 \/ m = 4 \/ m = 5 \/ m = 6 \/ m = 7) by lia. destruct K as [->|[->|[->|[->|[->|[->|[->| ->]]]]]]]; cbv beta iota; repeat sstep2.
Qed.
Lemma says_mmm m : modrm_ok m -> m_mod m <> 3 -> says (get_mmm E m).
Proof.
  intros [Hm Hr] H3. unfold get_mmm. apply says_bind; [apply says_getD|intros a32].
  assert (K : m_mod m = 0 \/ m_mod m = 1 \/ m_mod m = 2) by lia. destruct a32; destruct K as [K|[K|K]]; rewrite K; cbv beta iota;
  repeat (lazymatch goal with |- says (dofunc _ _ _ _) => apply says_dofunc; exact Hr | |- says (dofunc32 _ _ _ _) => apply says_dofunc32; exact Hr | _ => sstep2 end).
Qed.
Lemma says_modm m : modrm_ok m -> says (decode_modm E m).
Proof. intros H. unfold decode_modm. destruct (Z.eqb_spec (m_mod m) 3); [apply says_ret|]. apply says_bind; [apply says_mmm; assumption|intros]. repeat sstep2. Qed.
Lemma says_modmx m : L E_BADMEM -> modrm_ok m -> says (decode_modmx E m).
Proof. intros L3 H. unfold decode_modmx. destruct (Z.eqb_spec (m_mod m) 3); [apply says_ret|]. apply says_bind; [apply says_mmm; assumption|intros]. repeat sstep2. Qed.
Lemma says_parse : says (parse_modrm E).
Proof. unfold parse_modrm. eapply says_bindv; [apply says_modrm|intros m Hm]. apply says_bind; [apply says_modm, Hm|intros; apply says_ret]. Qed.
Lemma says_parsex : L E_BADMEM -> says (parse_modrmx E).
Proof. intros L3. unfold parse_modrmx. eapply says_bindv; [apply says_modrm|intros m Hm]. apply says_bind; [apply says_modmx; assumption|intros; apply says_ret]. Qed.
Lemma says_nocheckv : saysv modrm_ok (get_modrm_nocheck E).
Proof. intros s Hb. pose proof (says_modrm s Hb) as H. unfold get_modrm_nocheck. destruct (get_modrm E s); auto. Qed.
Lemma says_nocheck : says (get_modrm_nocheck E).
Proof. intros s Hb. pose proof (says_get_modrm s Hb) as H. unfold get_modrm_nocheck. destruct (get_modrm E s); auto. Qed.
Ltac sstep3 :=
  lazymatch goal with
  | |- says (bind (get_modrm _) _) => eapply says_bindv; [apply says_modrm|intros ? ?]
  | |- says (bind (get_modrm_nocheck _) _) => eapply says_bindv; [apply says_nocheckv|intros ? ?]
  | |- says (get_mmm _ _) => apply says_mmm; assumption
  | |- says (if m_mod ?m =? 3 then _ else _) => destruct (Z.eqb_spec (m_mod m) 3)
  | _ => sstep2
  end.
Ltac sstep4 :=
  lazymatch goal with
  | |- says (decode_modm _ _) => apply says_modm; assumption
  | |- says (decode_modmx _ _) => apply says_modmx; assumption
  | |- says (parse_modrm _) => apply says_parse
  | |- says (parse_modrmx _) => apply says_parsex; assumption
  | |- says (get_modrm_nocheck _) => apply says_nocheck
  | |- says (alu_vals _ _ _ _ _) => unfold alu_vals
  | |- says (alu2 _ _ _ _) => unfold alu2
  | |- says (alu2i _ _ _ _) => unfold alu2i
  | |- says (alu1 _ _ _) => unfold alu1
  | |- says (misc_select _ _ _ _) => unfold misc_select
  | |- says (mul_body _ _) => unfold mul_body
  | |- says (imul_body _ _) => unfold imul_body
  | |- says (div_body _ _) => unfold div_body
  | |- says (idiv_body _ _) => unfold idiv_body
  | |- says (imul2 _ _ _) => unfold imul2
  | |- says (do_shift _ _ _ _) => unfold do_shift
  | |- says (do_dbl _ _ _ _ _) => unfold do_dbl
  | |- says (parse_farptr _) => unfold parse_farptr
  | |- says (jump_if _ _) => unfold jump_if
  | |- says (loop_with _ _) => unfold loop_with
  | |- says data_seg => unfold data_seg
  | |- says (moffs _) => unfold moffs
  | |- says (copy _ _ _) => unfold copy
  | |- says (peek8 _) => unfold peek8
  | |- says (xchg _ _ _) => unfold xchg
  | |- says (pop_to _ _) => unfold pop_to
  | |- says (push_imm _ _) => unfold push_imm
  | _ => sstep3
  end.
Lemma says_enter_loop n : L E_UNDEF -> says (enter_loop E n).
Proof. intros L4. induction n as [|n IH]; cbn [enter_loop]; [apply says_ret|]. repeat (first [exact IH|sstep4]). Qed.
Lemma says_enter_step : says (bp <- getW R_BP ;; setW R_BP (bp - 2) ;;; ss <- getA r_ss ;; bp' <- getW R_BP ;; v <- rd E 16 ss bp' ;; push E (ret v)).
Proof. repeat sstep4. Qed.
Lemma says_enter_start : says (push E (getW R_BP)). Proof. repeat sstep4. Qed.
Lemma says_enter_end ft size : says (push E (ret ft) ;;; setW R_BP ft ;;; sp <- getW R_SP ;; setW R_SP (sp - size)). Proof. repeat sstep4. Qed.
Lemma says_unary_m k : (k <> 0 /\ k <> 1 -> L E_UNDEF) -> says (x_unary_m E k).
Proof.
  intros H. unfold x_unary_m. destruct k as [|[q|q|]|q]; repeat sstep4; apply H; split; discriminate.
Qed.
(** A far pointer that could be read. *)
Lemma says_far m : m_mod m <> 3 -> modrm_ok m -> says (so <- get_mmm E m ;; ip <- rd E 16 (fst so) (snd so) ;; cs <- rd E 16 (fst so) (snd so + 2) ;; ret (cs, ip)).
Proof. intros. repeat sstep4. Qed.
Lemma says_far_call (ci : Z * Z) : says (push E (getA r_cs) ;;; push E next_ip ;;; set_ip (snd ci) ;;; set_cs (fst ci) ;;; dont_change_ip). Proof. repeat sstep4. Qed.
Lemma says_far_jump (ci : Z * Z) : says (set_ip (snd ci) ;;; set_cs (fst ci) ;;; dont_change_ip). Proof. repeat sstep4. Qed.
Lemma says_str_body o w a b c d : says (str_body E o w a b c d). Proof. unfold str_body. destruct o; repeat sstep4. Qed.
Lemma says_str_loop n : forall o w m a b c d, says (str_loop E n o w m a b c d).
Proof.
  induction n as [|n IH]; intros; cbn [str_loop]; [apply says_fuel|].
  repeat (lazymatch goal with |- says (str_body _ _ _ _ _ _ _) => apply says_str_body | |- says (str_loop _ _ _ _ _ _ _ _ _) => apply IH | _ => sstep4 end).
Qed.
Definition plain (o : opid) : bool :=
  match o with OUnaryMX | OExt0F | OInt3 | OIntI | OInto => false | _ => negb (word_op o || imul_op o) end.
Lemma says_plain o p : plain o = true -> (may_undef o = true -> L E_UNDEF) -> (may_div o = true -> L E_DIVERR) -> (is_hlt o = true -> L E_HALT) -> (is_prefix o = true -> L E_CONTINUE) -> says (exec1 E o p).
Proof.
  intros HP H4 H5 H8 H1. destruct o; try discriminate HP; cbn [exec1]; cbn [may_undef may_div is_hlt is_prefix] in *;
  try specialize (H4 eq_refl); try specialize (H5 eq_refl); try specialize (H8 eq_refl); try specialize (H1 eq_refl);
  try (match goal with f : form |- _ => destruct f; try discriminate HP end);
  try (match goal with |- says ?h => let k := match h with ?f _ _ _ => f | ?f _ _ => f | ?f _ => f end in
       let k := match k with ?f _ => f | _ => k end in unfold k end); repeat sstep4;
  try (apply says_err; auto; fail);
  try (unfold x_out_dxa, x_out_dxax, x_cbw, x_cwd, x_ovr_op, x_ovr_addr; repeat sstep4; fail).
  - apply says_enter_loop. exact H4.
  - apply says_str_loop.
Qed.
(** F6, F7: only TEST .. IDIV. *)
Lemma says_misc k w x : 0 <= k < 8 -> k <> 1 -> L E_DIVERR -> says (misc_select E k w x).
Proof.
  intros Hk H1 HD. assert (K : k = 0 \/ k = 2 \/ k = 3 \/ k = 4 \/ k = 5 \/ k = 6 \/ k = 7) by lia.
  destruct K as [->|[->|[->|[->|[->|[->| ->]]]]]]; cbv beta iota delta [misc_select]; repeat sstep4.
Qed.
(** The other handlers that refuse some forms: a memory operand where they want one, no prefix 66. *)
Lemma modrm_known {X} (f : modrm -> M X) s m s1 : J s -> get_modrm E s = Ok m s1 -> (modrm_ok m -> says (f m)) -> match bind (get_modrm E) f s with Err c _ => L c | _ => True end.
Proof.
  intros Hj Hm H. unfold bind. rewrite Hm. pose proof (says_modrm s Hj) as K. rewrite Hm in K. destruct K as (_ & J1 & Ho). pose proof (H Ho s1 J1) as K. destruct (f m s1); auto. apply K.
Qed.
Lemma lxs_memory sr s m s1 : J s -> get_modrm E s = Ok m s1 -> m_mod m <> 3 -> match x_lxs E sr s with Err c _ => L c | _ => True end.
Proof.
  intros Hj Hm H3. unfold x_lxs. assert (K : forall X (f : modrm -> M X), bind (get_modrm_nocheck E) f s = bind (get_modrm E) f s) by (intros; unfold bind, get_modrm_nocheck; rewrite Hm; reflexivity).
  rewrite K. eapply modrm_known; [exact Hj|exact Hm|]. intros Ho. destruct (Z.eqb_spec (m_mod m) 3); [contradiction|]. repeat sstep4.
Qed.
Lemma lea_memory s m s1 : J s -> get_modrm E s = Ok m s1 -> m_mod m <> 3 -> match x_lea E s with Err c _ => L c | _ => True end.
Proof.
  intros Hj Hm H3. unfold x_lea. eapply modrm_known; [exact Hj|exact Hm|]. intros Ho. destruct (Z.eqb_spec (m_mod m) 3); [contradiction|]. repeat sstep4.
Qed.
Lemma says_narrow {X} (m : M X) c0 s : says m -> J s -> d_op (dc s) = false -> match bind (getD d_op) (fun o => if o then err c0 else m) s with Err c _ => L c | _ => True end.
Proof. intros H Hj Ho. unfold bind, getD, gets. rewrite Ho. pose proof (H s Hj) as K. destruct (m s); auto. apply K. Qed.
Lemma stack_narrow o p s : In o [OPushA; OPopA; OPushF; OPopF] -> J s -> d_op (dc s) = false -> match exec1 E o p s with Err c _ => L c | _ => True end.
Proof.
  intros Ho Hj Hd. cbn [In] in Ho. destruct Ho as [<-|[<-|[<-|[<-|[]]]]]; cbn [exec1]; unfold x_pusha, x_popa, x_pushf, x_popf; apply says_narrow; auto; repeat sstep4.
Qed.
(** ** Handlers that begin with a word operand *)
Lemma parsex_J s rm s' : J s -> parse_modrmx E s = Ok rm s' -> J s'.
Proof.
  intros Hj. unfold parse_modrmx. unfold bind at 1. pose proof (says_modrm s Hj) as K. destruct (get_modrm E s) as [m s1| | |]; try discriminate.
  destruct K as (_ & J1 & Hm). unfold bind at 1. unfold decode_modmx. destruct (Z.eqb_spec (m_mod m) 3); [intros [= <- <-]; exact J1|]. unfold bind at 1.
  pose proof (says_mmm m Hm n s1 J1) as K2. destruct (get_mmm E m s1) as [so s2| | |]; try discriminate. destruct K2 as (_ & J2 & _).
  destruct (_ =? 4095); [discriminate|]. unfold bind. pose proof (says_getptr (fst so) (snd so) s2 J2) as K3. destruct (getptr E (fst so) (snd so) s2) as [x s3| | |]; try discriminate.
  intros [= <- <-]. apply K3.
Qed.
Definition parsed (s : st) : Prop := match parse_modrmx E s with Err c _ => L c | _ => True end.
Definition wk {X} (m : M X) : Prop := forall s, J s -> parsed s -> match m s with Err c _ => L c | _ => True end.
Lemma wk_parse {X} (f : ptr * ptr -> M X) : (forall rm, says (f rm)) -> wk (bind (parse_modrmx E) f).
Proof.
  intros H s Hj Hp. unfold bind, parsed in *. destruct (parse_modrmx E s) as [rm s1|c s1|r|] eqn:Hq; auto. pose proof (H rm s1 (parsex_J _ _ _ Hj Hq)) as K. destruct (f rm s1); auto. apply K.
Qed.
Lemma wk_read {X Y} (g : M X) (f : X -> M Y) : (forall s, match g s with Ok _ s' => s' = s | Err _ _ => False | _ => True end) -> (forall x, wk (f x)) -> wk (bind g f).
Proof. intros Hg H s Hj Hp. unfold bind. specialize (Hg s). destruct (g s) as [x s1| | |]; auto; [subst s1; apply H; assumption|contradiction]. Qed.
Lemma wk_peek {Y} (f : Z -> M Y) : (forall x, wk (f x)) -> wk (bind (peek8 E) f).
Proof.
  intros H s Hj Hp. unfold bind, peek8. unfold bind at 1. unfold fetch8, fetch. unfold bind, getA, getD, gets.
  destruct (rd E 8 _ _ s) as [v s1|c s1|r|] eqn:R; auto.
  - pose proof (rd_st _ _ _ _ _ _ _ R) as ->. unfold upd_dc, modify, ret. cbn beta.
    match goal with |- context [f v ?s1] => replace s1 with s end; [apply H; assumption|]. destruct s as [a d g n l]. unfold set_dc. cbn [ar dc dbg icount lastnull]. f_equal. destruct d. unfold dd_ipoff. cbn. f_equal. lia.
  - exfalso. pose proof (says_rd 8 (r_cs (ar s)) (wrap 16 (r_ip (ar s) + d_ipoff (dc s))) s Hj) as K. revert R. clear - Hj E. unfold rd. unfold bind.
    unfold getptr. cbv zeta. destruct (Z.ltb_spec (wrap 32 (r_cs (ar s) * 16 + wrap 16 (r_ip (ar s) + d_ipoff (dc s))) / 4096) 272); [|discriminate]. rewrite (proj2 Hj).
    + unfold hload. destruct (load_bytes _ _ _); discriminate.
    + split; [|assumption]. apply Z.div_pos; [|lia]. apply Z.mod_pos_bound. reflexivity.
Qed.
Lemma wk_zx {X} (f : modrm -> ptr -> M X) : (forall m p, says (f m p)) -> wk (bind (get_modrm E) (fun m => bind (decode_modmx E m) (f m))).
Proof.
  intros H s Hj Hp. unfold parsed, parse_modrmx in Hp. unfold bind in *. pose proof (says_modrm s Hj) as K0. destruct (get_modrm E s) as [m s1|c s1|r|] eqn:Hm; auto.
  destruct (decode_modmx E m s1) as [p s2|c s2|r|] eqn:Hd; auto.
  assert (J2 : J s2). { apply (parsex_J s (regW (m_rrr m), p)); [exact Hj|]. unfold parse_modrmx, bind. rewrite Hm, Hd. reflexivity. }
  pose proof (H m p s2 J2) as K. destruct (f m p s2); auto. apply K.
Qed.
Lemma wk_err {X} c : L c -> wk (@err X c).
Proof. intros H s _ _. exact H. Qed.
Lemma wk_says {X} (m : M X) : says m -> wk m.
Proof. intros H s Hj _. pose proof (H s Hj) as K. destruct (m s); auto. apply K. Qed.
Lemma wk_if {X} (b : bool) (m m' : M X) : (b = true -> wk m) -> (b = false -> wk m') -> wk (if b then m else m').
Proof. destruct b; auto. Qed.
Ltac wstep :=
  lazymatch goal with
  | |- wk (bind (parse_modrmx _) _) => apply wk_parse; intros ?; repeat sstep4
  | |- wk (bind (getD _) _) => apply wk_read; [intros ?; reflexivity|intros ?]
  | |- wk (bind (getL _) _) => apply wk_read; [intros ?; reflexivity|intros ?]
  | |- wk (bind opw _) => apply wk_read; [intros ?; reflexivity|intros ?]
  | |- wk (bind (chkseg _) _) => apply wk_read; [intros ?; unfold chkseg; destruct (sreg_of _ _); reflexivity || exact I|intros ?]
  | |- wk (bind (peek8 _) _) => apply wk_peek; intros ?
  | |- wk (if ?b then _ else _) => apply wk_if; intros ?
  | |- wk (err _) => apply wk_err; auto
  end.
Lemma wk_word o p : word_op o || imul_op o = true -> (may_undef o = true -> L E_UNDEF) -> (may_bug o = true -> L E_BUG) -> (may_div o = true -> L E_DIVERR) -> wk (exec1 E o p).
Proof.
  intros HP H4 H6 H5. destruct o; try discriminate HP; cbn [exec1]; cbn [may_undef may_div may_bug is_prefix] in *;
  try specialize (H4 eq_refl); try specialize (H5 eq_refl); try specialize (H6 eq_refl);
  try (match goal with f : form |- _ => destruct f; try discriminate HP end);
  try (match goal with |- wk ?h => let k := match h with ?f _ _ _ => f | ?f _ _ => f | ?f _ => f end in
       let k := match k with ?f _ => f | _ => k end in unfold k end); try (repeat wstep; fail).
  unfold x_mov_zx. apply wk_zx. intros m q. repeat sstep4.
Qed.
Lemma wk_unary_mx16 p s : (p <> 3 /\ p <> 5) -> J s -> parsed s -> d_op (dc s) = false -> (p = 7 \/ p < 0 \/ 7 < p -> L E_UNDEF) -> match x_unary_mx E p s with Err c _ => L c | _ => True end.
Proof.
  intros Hp Hj Hq Ho H4. unfold x_unary_mx. unfold bind at 1, getD, gets. rewrite Ho.
  destruct p as [|[[[q|q|]|[q|q|]|]|[[q|q|]|[q|q|]|]|]|q]; try (exfalso; lia); try (apply H4; lia); match goal with |- match ?m s with _ => _ end => enough (wk m) as K by (apply K; assumption) end; repeat wstep.
Qed.
Lemma wk_unary_mx32 p s : J s -> parsed s -> d_op (dc s) = true -> (p <> 0 /\ p <> 1 /\ p <> 6 -> L E_UNDEF) -> match x_unary_mx E p s with Err c _ => L c | _ => True end.
Proof.
  intros Hj Hq Ho H4. unfold x_unary_mx. unfold bind at 1, getD, gets. rewrite Ho.
  destruct p as [|[[[q|q|]|[q|q|]|]|[[q|q|]|[q|q|]|]|]|q]; try (apply H4; lia); match goal with |- match ?m s with _ => _ end => enough (wk m) as K by (apply K; assumption) end; repeat wstep.
Qed.
Lemma wk_narrow {X} (m : M X) c0 s : wk m -> J s -> parsed s -> d_op (dc s) = false -> match bind (getD d_op) (fun o => if o then err c0 else m) s with Err c _ => L c | _ => True end.
Proof. intros H Hj Hp Ho. unfold bind, getD, gets. rewrite Ho. exact (H s Hj Hp). Qed.
Lemma word_narrow o p s : In o [OMovRS; OMovSR; OPopMX] -> J s -> parsed s -> d_op (dc s) = false -> match exec1 E o p s with Err c _ => L c | _ => True end.
Proof.
  intros Ho Hj Hp Hd. cbn [In] in Ho. destruct Ho as [<-|[<-|[<-|[]]]]; cbn [exec1]; unfold x_mov_rs, x_mov_sr, x_pop_mx; apply wk_narrow; auto; repeat wstep.
Qed.
Lemma misc_known k s : 0 <= k < 8 -> k <> 1 -> L E_DIVERR -> J s -> match x_misc_mi E k s with Err c _ => L c | _ => True end.
Proof.
  intros Hk H1 HD Hj. assert (K : says (x_misc_mi E k)). { unfold x_misc_mi. apply says_bind; [apply says_parse|]. intros. apply says_misc; assumption. }
  pose proof (K s Hj) as K'. destruct (x_misc_mi E k s); auto. apply K'.
Qed.
Lemma misc_knownx k s : 0 <= k < 8 -> k <> 1 -> L E_DIVERR -> J s -> parsed s -> match x_misc_mix E k s with Err c _ => L c | _ => True end.
Proof.
  intros Hk H1 HD Hj Hp. assert (K : wk (x_misc_mix E k)). { unfold x_misc_mix. apply wk_parse. intros. apply says_bind; [unfold opw; repeat sstep4|]. intros. apply says_misc; assumption. }
  exact (K s Hj Hp).
Qed.
Lemma says_farptr : L E_UNDEF -> says (parse_farptr E).
Proof. intros H. unfold parse_farptr. repeat sstep4. Qed.
Lemma says_unary_far p s : p = 3 \/ p = 5 -> L E_UNDEF -> J s -> match x_unary_mx E p s with Err c _ => L c | _ => True end.
Proof.
  intros Hp H4 Hj. unfold x_unary_mx. unfold bind at 1, getD, gets. destruct (d_op (dc s)); destruct Hp as [->| ->]; try exact H4;
  (match goal with |- match ?m s with _ => _ end => enough (says m) as K by (pose proof (K s Hj) as K'; destruct (m s); auto; apply K') end); repeat sstep4.
Qed.
(** Interrupts: only an empty vector is refused. *)
Lemma interrupt_open n s : quiet_host E -> J s -> match call_interrupt E n s with Err c _ => L c \/ (c = E_BADMEM /\ exists v1 v2 s1, rd E 16 0 (n * 4) s = Ok v1 s /\ rd E 16 0 (n * 4 + 2) s = Ok v2 s1 /\ v1 = 0 /\ v2 = 0) | _ => True end.
Proof.
  intros Q Hj. unfold call_interrupt. unfold bind at 1. pose proof (says_rd 16 0 (n * 4) s Hj) as K1. destruct (rd E 16 0 (n * 4) s) as [v1 s1|c s1| |] eqn:R1; auto; [|left; apply K1].
  pose proof (rd_st _ _ _ _ _ _ _ R1) as ->. unfold bind at 1. pose proof (says_rd 16 0 (n * 4 + 2) s Hj) as K2. destruct (rd E 16 0 (n * 4 + 2) s) as [v2 s1|c s1| |] eqn:R2; auto; [|left; apply K2].
  destruct ((v1 =? 0) && (v2 =? 0)) eqn:Hz; [right; split; [reflexivity|]; exists v1, v2, s1; repeat split; auto; lia|]. destruct K2 as (_ & J2 & _).
  destruct ((v2 =? 47104) && (v1 =? n)); [unfold call_hle; destruct (hle (ar s1) n =? 0); exact I|].
  match goal with |- match ?m s1 with _ => _ end => enough (says m) as K by (pose proof (K s1 J2) as K'; destruct (m s1); auto; left; apply K') end. repeat sstep4.
Qed.
End Says.
End Refuse.
