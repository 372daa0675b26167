(** Which error codes an instruction can end with, and that handlers leave the "last instruction was 00 00" flag alone. *)
From Verif Require Import Base Cpu Alu Ops Machine Spec SpecRun SpecTop SpecCodes PBase PMem PRun PFrame PKeep2 PKeep3 PTop PTop3.

Definition may_div (o : opid) : bool := match o with OMiscMI | OMiscMIX | OAam => true | _ => false end.
Definition may_undef (o : opid) : bool :=
  match o with OMiscMI | OMiscMIX | OUnaryM | OUnaryMX | OEnter | OLxs _ | OLea | OBtx | OMovRS | OMovSR | OPushA | OPopA | OPushF | OPopF | OPopMX | OExt0F => true | _ => is_prefix o end.
Definition may_bug (o : opid) : bool := match o with OImulMI8X | OImulMIX | OImulRMX | OExt0F => true | _ => false end.
Definition is_hlt (o : opid) : bool := match o with OHlt => true | _ => false end.

Lemma op_table0F b e : ca_op0F b = Some e -> may_div (e_op e) = false /\ is_hlt (e_op e) = false /\ is_prefix (e_op e) = false.
Proof.
  intros H. unfold ca_op0F in H.
  pose proof (PTop.ca_table (fun e => negb (may_div (e_op e)) && negb (is_hlt (e_op e)) && negb (is_prefix (e_op e))) caOperations0F b e ltac:(vm_compute; reflexivity) H) as K.
  cbn beta in K. destruct (may_div (e_op e)), (is_hlt (e_op e)), (is_prefix (e_op e)); try discriminate. auto.
Qed.
Section Codes.
Context (E : env) (Q : quiet_host E).
Section Says.
Context (L : Z -> Prop) (L3 : L E_BADMEM).
Definition saysv {X} (P : X -> Prop) (m : M X) : Prop := forall s, byte_memory s ->
  match m s with Ok x s' => lastnull s' = lastnull s /\ byte_memory s' /\ P x | Err c s' => L c /\ lastnull s' = lastnull s /\ byte_memory s' | _ => True end.
Definition says {X} (m : M X) : Prop := saysv (fun _ => True) m.
Lemma says_bindv {X Y} P (m : M X) (f : X -> M Y) : saysv P m -> (forall x, P x -> says (f x)) -> says (bind m f).
Proof.
  intros H1 H2 s Hb. unfold bind. specialize (H1 s Hb). destruct (m s) as [x s'|c s'|r|]; auto. destruct H1 as (Hl & Hb' & HP).
  specialize (H2 x HP s' Hb'). destruct (f x s'); auto; [|destruct H2 as (? & ? & ?); split; [assumption|]; split; [congruence|assumption]]. destruct H2 as (? & ? & ?). split; [congruence|auto].
Qed.
Lemma says_bind {X Y} (m : M X) (f : X -> M Y) : says m -> (forall x, says (f x)) -> says (bind m f).
Proof. intros H1 H2. eapply says_bindv; [exact H1|]. auto. Qed.
Lemma says_ret {X} (x : X) : says (ret x). Proof. intros s Hb. split; [reflexivity|]. auto. Qed.
Lemma says_err {X} c : L c -> says (@err X c). Proof. intros H s Hb. split; [exact H|]. split; [reflexivity|exact Hb]. Qed.
Lemma says_undef {X} r : says (@undef X r). Proof. intros s Hb. exact I. Qed.
Lemma says_fuel {X} : says (fun _ => @Fuel X). Proof. intros s Hb. exact I. Qed.
Lemma says_getA {X} (f : arch -> X) : says (getA f). Proof. intros s Hb. split; [reflexivity|]. auto. Qed.
Lemma says_getD {X} (f : dec -> X) : says (getD f). Proof. intros s Hb. split; [reflexivity|]. auto. Qed.
Lemma says_upd_ar f : (forall a, hmem (f a) = hmem a) -> says (upd_ar f). Proof. intros H s Hb. split; [reflexivity|]. split; [|exact I]. intros x b. cbn [upd_ar modify set_ar ar]. rewrite H. apply Hb. Qed.
Lemma says_upd_dc f : says (upd_dc f). Proof. intros s Hb. split; [reflexivity|]. auto. Qed.
Lemma says_hload w p : says (hload w p). Proof. intros s Hb. unfold hload. destruct (load_bytes _ _ _); [split; [reflexivity|auto]|exact I]. Qed.
Lemma store_range n : forall p v m, (forall x b, m x = Some b -> 0 <= b < 256) -> forall x b, store_bytes n p v m x = Some b -> 0 <= b < 256.
Proof. intros p v m Hm x b. unfold store_bytes. destruct (_ && _); [|apply Hm]. intros [= <-]. apply Z.mod_pos_bound. lia. Qed.
Lemma says_hstore w p v : says (hstore w p v).
Proof. intros s Hb. unfold hstore. destruct (valid_bytes _ _ _); [|exact I]. split; [reflexivity|]. split; [|exact I]. intros x b. cbn [set_ar ar a_hmem hmem]. apply store_range. exact Hb. Qed.
Lemma says_getptr sg o : says (getptr E sg o).
Proof. intros s Hb. unfold getptr. cbv zeta. destruct (_ <? 272); [|exact I]. destruct (_ && _ && _); [split; [exact L3|split; [reflexivity|exact Hb]]|split; [reflexivity|auto]]. Qed.
Lemma says_getseg c : says (getseg c). Proof. intros s Hb. unfold getseg. destruct (sreg_of _ _); [split; [reflexivity|auto]|exact I]. Qed.
Lemma says_chkseg c : says (chkseg c). Proof. intros s Hb. unfold chkseg. destruct (sreg_of _ _); [split; [reflexivity|auto]|exact I]. Qed.
Lemma sreg_set_mem c v a a' : sreg_set c v a = Some a' -> hmem a' = hmem a.
Proof. unfold sreg_set. repeat (match goal with |- context [match ?x with _ => _ end] => destruct x end); try discriminate; intros [= <-]; reflexivity. Qed.
Lemma says_setseg c v : says (setseg c v).
Proof. intros s Hb. unfold setseg. destruct (sreg_set _ _ _) as [a|] eqn:K; [|exact I]. split; [reflexivity|]. split; [|exact I]. intros x b. cbn [set_ar ar]. rewrite (sreg_set_mem _ _ _ _ K). apply Hb. Qed.
Lemma says_set_gpr p w v : says (set_gpr p w v). Proof. apply says_upd_ar. reflexivity. Qed.
Lemma says_load w p : says (load w p). Proof. destruct p; [apply says_getA|apply says_hload]. Qed.
Lemma says_store w p v : says (store w p v). Proof. destruct p; [apply says_set_gpr|apply says_hstore]. Qed.
Lemma says_io_in w p : says (io_in E w p). Proof. intros s Hb. split; [reflexivity|]. split; [exact Hb|exact I]. Qed.
Lemma says_io_out w p v : says (io_out w p v). Proof. intros s Hb. split; [reflexivity|]. split; [exact Hb|exact I]. Qed.
Lemma says_hle n : says (call_hle E n). Proof. intros s Hb. unfold call_hle. destruct (_ =? 0); [split; [reflexivity|auto]|]. destruct (Q (hle (ar s) n) n s) as [H1 H2]. split; [exact H1|auto]. Qed.
Ltac sstep :=
  lazymatch goal with
  | |- says (bind _ _) => apply says_bind; [|intros ?]
  | |- says (ret _) => apply says_ret
  | |- says (err _) => apply says_err; first [assumption|auto]
  | |- says (undef _) => apply says_undef
  | |- says (getA _) => apply says_getA
  | |- says (getD _) => apply says_getD
  | |- says (upd_ar _) => apply says_upd_ar; reflexivity
  | |- says (upd_dc _) => apply says_upd_dc
  | |- says (hload _ _) => apply says_hload
  | |- says (hstore _ _ _) => apply says_hstore
  | |- says (getptr _ _ _) => apply says_getptr
  | |- says (getseg _) => apply says_getseg
  | |- says (chkseg _) => apply says_chkseg
  | |- says (setseg _ _) => apply says_setseg
  | |- says (load _ _) => apply says_load
  | |- says (store _ _ _) => apply says_store
  | |- says (io_in _ _ _) => apply says_io_in
  | |- says (io_out _ _ _) => apply says_io_out
  | |- says (call_hle _ _) => apply says_hle
  | |- says (if ?b then _ else _) => destruct b
  | |- says (let '(_, _) := ?e in _) => destruct e
  | |- says (match ?e with _ => _ end) => destruct e
  | |- says (let _ := _ in _) => cbv zeta
  | |- says (set_gpr _ _ _) => apply says_set_gpr
  | |- says (setW _ _) => apply says_set_gpr
  | |- says (setL _ _) => apply says_set_gpr
  | |- says (setH _ _) => apply says_set_gpr
  | |- says (set_ip _) => apply says_upd_ar; reflexivity
  | |- says (set_cs _) => apply says_upd_ar; reflexivity
  | |- says (set_flags _) => apply says_upd_ar; reflexivity
  | |- says (get_gpr _ _) => apply says_getA
  | |- says (getW _) => apply says_getA
  | |- says (getDw _) => apply says_getA
  | |- says (getL _) => apply says_getA
  | |- says (getH _) => apply says_getA
  | |- says getflags => apply says_getA
  | |- says next_ip => unfold next_ip
  | |- says dont_change_ip => apply says_upd_dc
  | |- says opw => unfold opw
  | |- says (upd_flags _) => unfold upd_flags
  end.
Ltac swalk := repeat sstep.

Lemma says_rd w sg o : says (rd E w sg o). Proof. unfold rd. swalk. Qed.
Lemma says_wr w sg o v : says (wr E w sg o v). Proof. unfold wr. swalk. Qed.
Ltac sstep1 := lazymatch goal with |- says (rd _ _ _ _) => apply says_rd | |- says (wr _ _ _ _ _) => apply says_wr | _ => sstep end.
Lemma says_fetch w : says (fetch E w). Proof. unfold fetch. repeat sstep1. Qed.
Lemma says_fetch8s : says (fetch8s E). Proof. unfold fetch8s. apply says_bind; [apply says_fetch|intros; apply says_ret]. Qed.
Definition modrm_ok (m : modrm) : Prop := 0 <= m_mod m < 4 /\ 0 <= m_mmm m < 8.
Lemma says_modrm : saysv modrm_ok (get_modrm E).
Proof.
  intros s Hb. pose proof (says_fetch 8 s Hb) as H. unfold get_modrm, fetch8, bind. unfold fetch, rd in *.
  unfold bind, getA, getD, gets in *. destruct (getptr E _ _ s) as [p s1|c s1|r|] eqn:Ep; try exact H. unfold hload in *.
  destruct (load_bytes (nbytes 8) (hmem (ar s1)) p) as [v|] eqn:El; [|exact I]. destruct H as (H1 & H2 & _). cbn in H1, H2 |- *. split; [exact H1|]. split; [exact H2|].
  assert (Hb1 : byte_memory s1). { pose proof (says_getptr (r_cs (ar s)) (wrap 16 (r_ip (ar s) + d_ipoff (dc s))) s Hb) as Hg. rewrite Ep in Hg. apply Hg. }
  assert (0 <= v < 256). { change (nbytes 8) with 1%nat in El. cbn [load_bytes] in El. destruct (hmem (ar s1) p) as [b|] eqn:K; [|discriminate]. apply Hb1 in K. injection El as <-. lia. }
  unfold modrm_ok, modrm_of. cbn [m_mod m_mmm]. lia.
Qed.
Lemma says_get_modrm : says (get_modrm E). Proof. intros s Hb. pose proof (says_modrm s Hb) as H. destruct (get_modrm E s); auto. destruct H as (? & ? & ?). auto. Qed.
Lemma says_push v : says v -> says (push E v).
Proof. intros. unfold push. repeat (first [assumption|sstep1]). Qed.
Lemma says_pop : says (pop E). Proof. unfold pop. repeat sstep1. Qed.
Ltac sstep2 :=
  lazymatch goal with
  | |- says (fetch8 _) => apply says_fetch
  | |- says (fetch16 _) => apply says_fetch
  | |- says (fetch32 _) => apply says_fetch
  | |- says (fetch _ _) => apply says_fetch
  | |- says (fetch8s _) => apply says_fetch8s
  | |- says (get_modrm _) => apply says_get_modrm
  | |- says (push _ _) => apply says_push
  | |- says (pop _) => apply says_pop
  | _ => sstep1
  end.
Lemma says_ea m b : says (ea_segment m b). Proof. unfold ea_segment. repeat sstep2. Qed.
Lemma says_dofunc m b d : 0 <= m < 8 -> says (dofunc E m b d).
Proof.
  intros Hm. unfold dofunc. apply says_bind; [apply says_ea|intros]. apply says_bind; [|intros; apply says_ret].
  assert (K : m = 0 \/ m = 1 \/ m = 2 \/ m = 3 \/ m = 4 \/ m = 5 \/ m = 6 \/ m = 7) by lia. destruct K as [->|[->|[->|[->|[->|[->|[->| ->]]]]]]]; cbv beta iota; repeat sstep2.
Qed.
Lemma says_dofunc32 m b d : 0 <= m < 8 -> says (dofunc32 E m b d).
Proof.
  intros Hm. unfold dofunc32. apply says_bind; [apply says_ea|intros]. apply says_bind; [|intros; apply says_ret]. unfold sib_index.
  assert (K : m = 0 \/ m = 1 \/ m = 2 \/ m = 3 \/ m = 4 \/ m = 5 \/ m = 6 \/ m = 7) by lia. destruct K as [->|[->|[->|[->|[->|[->|[->| ->]]]]]]]; cbv beta iota; repeat sstep2.
Qed.
Lemma says_mmm m : modrm_ok m -> m_mod m <> 3 -> says (get_mmm E m).
Proof.
  intros [Hm Hr] H3. unfold get_mmm. apply says_bind; [apply says_getD|intros a32].
  assert (K : m_mod m = 0 \/ m_mod m = 1 \/ m_mod m = 2) by lia. destruct a32; destruct K as [K|[K|K]]; rewrite K; cbv beta iota;
  repeat (lazymatch goal with |- says (dofunc _ _ _ _) => apply says_dofunc; exact Hr | |- says (dofunc32 _ _ _ _) => apply says_dofunc32; exact Hr | _ => sstep2 end).
Qed.
Lemma says_modm m : modrm_ok m -> says (decode_modm E m).
Proof. intros H. unfold decode_modm. destruct (Z.eqb_spec (m_mod m) 3); [apply says_ret|]. apply says_bind; [apply says_mmm; assumption|intros]. repeat sstep2. Qed.
Lemma says_modmx m : modrm_ok m -> says (decode_modmx E m).
Proof. intros H. unfold decode_modmx. destruct (Z.eqb_spec (m_mod m) 3); [apply says_ret|]. apply says_bind; [apply says_mmm; assumption|intros]. repeat sstep2. Qed.
Lemma says_parse : says (parse_modrm E).
Proof. unfold parse_modrm. eapply says_bindv; [apply says_modrm|intros m Hm]. apply says_bind; [apply says_modm, Hm|intros; apply says_ret]. Qed.
Lemma says_parsex : says (parse_modrmx E).
Proof. unfold parse_modrmx. eapply says_bindv; [apply says_modrm|intros m Hm]. apply says_bind; [apply says_modmx, Hm|intros; apply says_ret]. Qed.
Lemma says_nocheckv : saysv modrm_ok (get_modrm_nocheck E).
Proof. intros s Hb. pose proof (says_modrm s Hb) as H. unfold get_modrm_nocheck. destruct (get_modrm E s); auto. Qed.
Lemma says_nocheck : says (get_modrm_nocheck E).
Proof. intros s Hb. pose proof (says_get_modrm s Hb) as H. unfold get_modrm_nocheck. destruct (get_modrm E s); auto. Qed.
Ltac sstep3 :=
  lazymatch goal with
  | |- says (bind (get_modrm _) _) => eapply says_bindv; [apply says_modrm|intros ? ?]
  | |- says (bind (get_modrm_nocheck _) _) => eapply says_bindv; [apply says_nocheckv|intros ? ?]
  | |- says (get_mmm _ _) => apply says_mmm; assumption
  | |- says (if m_mod ?m =? 3 then _ else _) => destruct (Z.eqb_spec (m_mod m) 3)
  | _ => sstep2
  end.
Ltac sstep4 :=
  lazymatch goal with
  | |- says (decode_modm _ _) => apply says_modm; assumption
  | |- says (decode_modmx _ _) => apply says_modmx; assumption
  | |- says (parse_modrm _) => apply says_parse
  | |- says (parse_modrmx _) => apply says_parsex
  | |- says (get_modrm_nocheck _) => apply says_nocheck
  | |- says (alu_vals _ _ _ _ _) => unfold alu_vals
  | |- says (alu2 _ _ _ _) => unfold alu2
  | |- says (alu2i _ _ _ _) => unfold alu2i
  | |- says (alu1 _ _ _) => unfold alu1
  | |- says (misc_select _ _ _ _) => unfold misc_select
  | |- says (mul_body _ _) => unfold mul_body
  | |- says (imul_body _ _) => unfold imul_body
  | |- says (div_body _ _) => unfold div_body
  | |- says (idiv_body _ _) => unfold idiv_body
  | |- says (imul2 _ _ _) => unfold imul2
  | |- says (do_shift _ _ _ _) => unfold do_shift
  | |- says (do_dbl _ _ _ _ _) => unfold do_dbl
  | |- says (parse_farptr _) => unfold parse_farptr
  | |- says (call_interrupt _ _) => unfold call_interrupt
  | |- says (jump_if _ _) => unfold jump_if
  | |- says (loop_with _ _) => unfold loop_with
  | |- says data_seg => unfold data_seg
  | |- says (moffs _) => unfold moffs
  | |- says (copy _ _ _) => unfold copy
  | |- says (peek8 _) => unfold peek8
  | |- says (xchg _ _ _) => unfold xchg
  | |- says (pop_to _ _) => unfold pop_to
  | |- says (push_imm _ _) => unfold push_imm
  | _ => sstep3
  end.
Lemma says_enter_loop n : L E_UNDEF -> says (enter_loop E n).
Proof. intros L4. induction n as [|n IH]; cbn [enter_loop]; [apply says_ret|]. repeat (first [exact IH|sstep4]). Qed.
Lemma says_enter_step : says (bp <- getW R_BP ;; setW R_BP (bp - 2) ;;; ss <- getA r_ss ;; bp' <- getW R_BP ;; v <- rd E 16 ss bp' ;; push E (ret v)).
Proof. repeat sstep4. Qed.
Lemma says_enter_start : says (push E (getW R_BP)). Proof. repeat sstep4. Qed.
Lemma says_enter_end ft size : says (push E (ret ft) ;;; setW R_BP ft ;;; sp <- getW R_SP ;; setW R_SP (sp - size)). Proof. repeat sstep4. Qed.
Lemma says_unary_m k : (k <> 0 /\ k <> 1 -> L E_UNDEF) -> says (x_unary_m E k).
Proof.
  intros H. unfold x_unary_m. destruct k as [|[q|q|]|q]; repeat sstep4; apply H; split; discriminate.
Qed.
Lemma says_unary_mx16 k : In k [0; 1; 2; 4; 6] -> forall s, byte_memory s -> d_op (dc s) = false ->
  match x_unary_mx E k s with Err c s' => L c | _ => True end.
Proof.
  intros Hk s Hb Hd. assert (K : forall X (m : M X), says m -> match m s with Err c _ => L c | _ => True end).
  { intros X m H. specialize (H s Hb). destruct (m s); auto. apply H. }
  unfold x_unary_mx. unfold bind at 1, getD, gets. rewrite Hd. cbn [In] in Hk.
  repeat (destruct Hk as [<-|Hk]; [apply K; repeat sstep4|]). contradiction.
Qed.
Lemma says_unary_mx32 k : In k [0; 1; 6] -> forall s, byte_memory s -> d_op (dc s) = true ->
  match x_unary_mx E k s with Err c s' => L c | _ => True end.
Proof.
  intros Hk s Hb Hd. assert (K : forall X (m : M X), says m -> match m s with Err c _ => L c | _ => True end).
  { intros X m H. specialize (H s Hb). destruct (m s); auto. apply H. }
  unfold x_unary_mx. unfold bind at 1, getD, gets. rewrite Hd. cbn [In] in Hk.
  repeat (destruct Hk as [<-|Hk]; [apply K; repeat sstep4|]). contradiction.
Qed.
(** A far pointer that could be read. *)
Lemma says_far m : m_mod m <> 3 -> modrm_ok m -> says (so <- get_mmm E m ;; ip <- rd E 16 (fst so) (snd so) ;; cs <- rd E 16 (fst so) (snd so + 2) ;; ret (cs, ip)).
Proof. intros. repeat sstep4. Qed.
Lemma says_far_call (ci : Z * Z) : says (push E (getA r_cs) ;;; push E next_ip ;;; set_ip (snd ci) ;;; set_cs (fst ci) ;;; dont_change_ip). Proof. repeat sstep4. Qed.
Lemma says_far_jump (ci : Z * Z) : says (set_ip (snd ci) ;;; set_cs (fst ci) ;;; dont_change_ip). Proof. repeat sstep4. Qed.
Lemma says_str_body o w a b c d : says (str_body E o w a b c d). Proof. unfold str_body. destruct o; repeat sstep4. Qed.
Lemma says_str_loop n : forall o w m a b c d, says (str_loop E n o w m a b c d).
Proof.
  induction n as [|n IH]; intros; cbn [str_loop]; [apply says_fuel|].
  repeat (lazymatch goal with |- says (str_body _ _ _ _ _ _ _) => apply says_str_body | |- says (str_loop _ _ _ _ _ _ _ _ _) => apply IH | _ => sstep4 end).
Qed.
Lemma says_imul1 : says (rm <- parse_modrmx E ;; i <- fetch8s E ;; s <- load 16 (snd rm) ;; imul2 (fst rm) s (wrap 16 i)). Proof. repeat sstep4. Qed.
Lemma says_imul2 : says (rm <- parse_modrmx E ;; i <- fetch16 E ;; s <- load 16 (snd rm) ;; imul2 (fst rm) s i). Proof. repeat sstep4. Qed.
Lemma says_imul3 : says (rm <- parse_modrmx E ;; s <- load 16 (snd rm) ;; d <- load 16 (fst rm) ;; imul2 (fst rm) s d). Proof. repeat sstep4. Qed.
Lemma says_op_param e : says (op_param E e). Proof. unfold op_param. repeat sstep4. Qed.
Lemma says_callint0 : says (int_callint E 0). Proof. unfold int_callint. change ((0 <? 0) || (255 <? 0)) with false. cbv iota. repeat sstep4. Qed.
Lemma says_exec1 o p : (may_undef o = true -> L E_UNDEF) -> (may_bug o = true -> L E_BUG) -> (may_div o = true -> L E_DIVERR) -> (is_hlt o = true -> L E_HALT) -> (is_prefix o = true -> L E_CONTINUE) -> says (exec1 E o p).
Proof.
  intros H4 H6 H5 H8 H1. destruct o; cbn [exec1]; cbn [may_undef may_bug may_div is_hlt is_prefix] in *;
  try specialize (H4 eq_refl); try specialize (H6 eq_refl); try specialize (H5 eq_refl); try specialize (H8 eq_refl); try specialize (H1 eq_refl);
  try (match goal with |- says ?h => let k := match h with ?f _ _ _ => f | ?f _ _ => f | ?f _ => f end in
       let k := match k with ?f _ => f | _ => k end in unfold k end); repeat sstep4;
  try (apply says_err; auto; fail);
  try (unfold x_out_dxa, x_out_dxax, x_cbw, x_cwd, x_ovr_op, x_ovr_addr; repeat sstep4; fail).
  - apply says_enter_loop. exact H4.
  - apply says_str_loop.
Qed.
Lemma says_exec o p : (may_undef o = true -> L E_UNDEF) -> (may_bug o = true -> L E_BUG) -> (may_div o = true -> L E_DIVERR) -> (is_hlt o = true -> L E_HALT) -> (is_prefix o = true -> L E_CONTINUE) -> says (exec E o p).
Proof.
  intros H4 H6 H5 H8 H1. destruct o; try (unfold exec; apply says_exec1; assumption).
  unfold exec. apply says_bind; [apply says_fetch|intros b]. destruct (ca_op0F b) as [e|] eqn:He; [|apply says_err; auto].
  destruct (op_table0F b e He) as (K1 & K2 & K3). apply says_exec1; auto; congruence.
Qed.
Lemma says_once : L E_UNDEF -> L E_BUG -> L E_DIVERR -> L E_HALT -> L E_CONTINUE -> L E_BREAK -> says (op_once E).
Proof.
  intros. unfold op_once. apply says_bind; [apply says_fetch|intros b]. destruct (b =? 241); [apply says_err; assumption|].
  destruct (ca_op b) as [e|]; [|apply says_err; assumption]. apply says_bind; [apply says_op_param|intros; apply says_exec; auto].
Qed.
Lemma says_advance : says advance_ip. Proof. unfold advance_ip. repeat sstep4. Qed.
End Says.

(** ** Whole instructions, on a flat memory *)
(** Why an instruction whose opcode byte is at offset i from IP ends with code c. *)
Definition is_imul (a : arch) (i : Z) : Prop := ipbyte a i = 0x69 \/ ipbyte a i = 0x6B \/ (ipbyte a i = 0x0F /\ ipbyte a (i + 1) = 0xAF).
Definition cause (a : arch) (op : bool) (i c : Z) : Prop :=
  (c = E_BREAK /\ ipbyte a i = 0xF1) \/ (c = E_HALT /\ ipbyte a i = 0xF4) \/ (c = E_DIVERR /\ divides (ipbyte a i)) \/
  c = E_BADMEM \/ (c = E_UNDEF /\ may_be_undefined (ipbyte a i)) \/ (c = E_BUG /\ op = true /\ is_imul a i).
Definition inl (b : Z) (l : list Z) : bool := existsb (Z.eqb b) l.
Lemma inl_in b l : inl b l = true <-> In b l.
Proof. unfold inl. rewrite existsb_exists. split; [intros (x & H & K); apply Z.eqb_eq in K; subst; exact H|intros H; exists b; rewrite Z.eqb_refl; auto]. Qed.
Definition undef_list : list Z :=
  [0x0F; 0x26; 0x2E; 0x36; 0x3E; 0x60; 0x61; 0x62; 0x63; 0x64; 0x65; 0x66; 0x67; 0x82; 0x8C; 0x8D; 0x8E; 0x8F; 0x9B; 0x9C; 0x9D;
   0xC4; 0xC5; 0xC8; 0xD6; 0xD8; 0xD9; 0xDA; 0xDB; 0xDC; 0xDD; 0xDE; 0xDF; 0xF0; 0xF2; 0xF3; 0xF6; 0xF7; 0xFE; 0xFF].
Definition imp (a b : bool) : bool := negb a || b.
Definition is_op_size (o : opid) : bool := match o with OOvrOpSize => true | _ => false end.
Definition is_0F (o : opid) : bool := match o with OExt0F => true | _ => false end.
Definition op_code_ok (e : entry) (b : Z) : bool :=
  imp (may_div (e_op e)) (inl b [0xF6; 0xF7; 0xD4]) && imp (is_hlt (e_op e)) (b =? 0xF4) && imp (may_undef (e_op e)) (inl b undef_list) &&
  imp (may_bug (e_op e)) (inl b [0x69; 0x6B; 0x0F]) && imp (is_0F (e_op e)) (b =? 0x0F) && imp (may_bug (e_op e) && negb (is_0F (e_op e))) (inl b [0x69; 0x6B]) &&
  imp (is_prefix (e_op e)) (inl b [38; 46; 54; 62; 100; 101; 102; 103; 242; 243] && negb (e_names e)) && imp (is_op_size (e_op e)) (b =? 0x66).
Lemma op_table b : 0 <= b < 256 -> match ca_op b with Some e => op_code_ok e b = true | None => b = 241 \/ inl b undef_list = true end.
Proof.
  intros Hb. assert (K : forallb (fun b => match ca_op b with Some e => op_code_ok e b | None => (b =? 241) || inl b undef_list end) (map Z.of_nat (seq 0 256)) = true) by (vm_compute; reflexivity).
  rewrite forallb_forall in K. specialize (K b). assert (Hin : In b (map Z.of_nat (seq 0 256))). { apply in_map_iff. exists (Z.to_nat b). split; [lia|]. apply in_seq. lia. }
  specialize (K Hin). destruct (ca_op b); [exact K|]. apply orb_true_iff in K. destruct K as [K|K]; [left; lia|right; exact K].
Qed.
Lemma op_table_AF b e : 0 <= b < 256 -> ca_op0F b = Some e -> may_bug (e_op e) = true -> b = 0xAF.
Proof.
  intros Hb He Hm. assert (K : forallb (fun b => match ca_op0F b with Some e => imp (may_bug (e_op e)) (b =? 0xAF) | None => true end) (map Z.of_nat (seq 0 256)) = true) by (vm_compute; reflexivity).
  rewrite forallb_forall in K. specialize (K b). assert (Hin : In b (map Z.of_nat (seq 0 256))). { apply in_map_iff. exists (Z.to_nat b). split; [lia|]. apply in_seq. lia. }
  specialize (K Hin). rewrite He, Hm in K. cbn [imp negb orb] in K. lia.
Qed.
Context (base : Z).
Lemma ipbyte_range a i : flat E base a -> wf_regs a -> 0 <= ipbyte a i < 256.
Proof.
  intros F W. unfold ipbyte. apply (byte_range E base); [exact F|]. pose proof (wf_cs _ W) as [H1 H2]. unfold lin. change (2 ^ 16) with 65536 in H2.
  pose proof (Z.mod_pos_bound (r_ip a + i) 65536 ltac:(lia)). lia.
Qed.
Lemma fetch8_any a d g n l : flat E base a -> wf_regs a -> fetch8 E (mkSt a d g n l) = Ok (ipbyte a (d_ipoff d)) (mkSt a (dd_ipoff (d_ipoff d + 1) d) g n l).
Proof.
  intros F W. unfold fetch8, fetch, bind, getA, getD, gets. cbn [ar dc]. rewrite (rd_flat E base) by (try assumption; try apply W; unfold width; lia).
  unfold upd_dc, modify, ret. cbn [ar dc dbg icount lastnull]. rewrite mem8. reflexivity.
Qed.
Lemma imp_true a b : imp a b = true -> a = true -> b = true.
Proof. unfold imp. destruct a; [intros H _; exact H|discriminate]. Qed.
(** IMUL reports a bug only with an operand size prefix. *)
Lemma exec1_bug o p s s' : byte_memory s -> o <> OExt0F -> exec1 E o p s = Err E_BUG s' -> may_bug o = true /\ d_op (dc s) = true.
Proof.
  intros Hb Ho H. destruct (may_bug o) eqn:Hm.
  - split; [reflexivity|]. destruct (d_op (dc s)) eqn:Hd; [reflexivity|]. exfalso. revert H.
    assert (K : forall X (m : M X), says (fun c => c <> E_BUG) m -> m s <> Err E_BUG s'). { intros X m Hs He. specialize (Hs s Hb). rewrite He in Hs. destruct Hs as [Hs _]. auto. }
    destruct o; try discriminate Hm; try congruence; cbn [exec1];
    unfold x_imul_mi8x, x_imul_mix, x_imul_rmx, bind at 1, getD, gets; rewrite Hd; apply K;
    (assert (L3 : E_BADMEM <> E_BUG) by discriminate); first [apply says_imul1; exact L3|apply says_imul2; exact L3|apply says_imul3; exact L3].
  - pose proof (says_exec1 (fun c => c <> E_BUG) ltac:(discriminate) o p) as K. rewrite Hm in K.
    specialize (K ltac:(discriminate) ltac:(discriminate) ltac:(discriminate) ltac:(discriminate) ltac:(discriminate) s Hb). rewrite H in K. destruct K as [K _]. congruence.
Qed.
Lemma once_codes s c s' : flat E base (ar s) -> wf_regs (ar s) -> byte_memory s -> op_once E s = Err c s' ->
  lastnull s' = lastnull s /\
  (cause (ar s) (d_op (dc s)) (d_ipoff (dc s)) c \/
   (c = E_CONTINUE /\ prefix_byte (ipbyte (ar s) (d_ipoff (dc s))) /\ ar s' = ar s /\ d_ipoff (dc s') = d_ipoff (dc s) + 1 /\
    (d_op (dc s') = true -> d_op (dc s) = true \/ ipbyte (ar s) (d_ipoff (dc s)) = 0x66))).
Proof.
  intros F W Hby. destruct s as [a d g n l]. cbn [ar dc] in *. unfold op_once. erewrite bind_ok by (apply fetch8_any; assumption). cbn beta.
  unfold cause, is_imul. set (b := ipbyte a (d_ipoff d)).
  assert (Hb : 0 <= b < 256) by (apply (ipbyte_range _ _ F W)).
  destruct (Z.eqb_spec b 241) as [E1|N1].
  { intros [= <- <-]. split; [reflexivity|]. left. left. auto. }
  pose proof (op_table b Hb) as T. destruct (ca_op b) as [e|] eqn:He.
  2:{ intros [= <- <-]. split; [reflexivity|]. left. right. right. right. right. left. split; [reflexivity|]. destruct T as [T|T]; [congruence|]. apply inl_in, T. }
  unfold op_code_ok in T. repeat (match goal with H : _ && _ = true |- _ => apply andb_true_iff in H; destruct H end).
  repeat (match goal with H : imp _ _ = true |- _ => apply imp_true in H end) || idtac.
  repeat (match goal with H : imp _ _ = true |- _ => pose proof (imp_true _ _ H); clear H end).
  set (s1 := mkSt a (dd_ipoff (d_ipoff d + 1) d) g n l). unfold bind at 1. cbn [lastnull].
  assert (Hb1 : byte_memory s1) by exact Hby.
  pose proof (says_op_param (fun c => c = E_BADMEM) ltac:(reflexivity) e s1 Hb1) as Hp.
  destruct (is_prefix (e_op e)) eqn:Hpre.
  - match goal with H : true = true -> inl b _ && negb (e_names e) = true |- _ => specialize (H eq_refl); apply andb_true_iff in H; destruct H as [Hpb Hn] end.
    apply negb_true_iff in Hn. apply inl_in in Hpb. fold (prefix_byte b) in Hpb.
    assert (Hud : may_be_undefined b). { apply inl_in. match goal with H : may_undef _ = true -> _ |- _ => apply H end. destruct (e_op e); try discriminate Hpre; reflexivity. }
    unfold op_param. rewrite Hn. unfold ret. destruct (e_op e); try discriminate Hpre; cbn [exec exec1]; unfold x_ovr_seg, x_ovr_op, x_ovr_addr, x_rep, bind, getD, gets, upd_dc, modify, chkseg, err;
    cbn [dc ar s1]; repeat (match goal with |- context [if ?c then _ else _] => destruct c eqn:? | |- context [match sreg_of ?c ?x with _ => _ end] => destruct (sreg_of c x) end); try discriminate;
    intros [= <- <-]; (split; [reflexivity|]);
    first [ right; split; [reflexivity|]; split; [exact Hpb|]; split; [reflexivity|]; split; [reflexivity|]; cbn [set_dc dc dd_seg dd_op dd_addr dd_rep d_op dd_ipoff]; auto; fail
          | right; split; [reflexivity|]; split; [exact Hpb|]; split; [reflexivity|]; split; [reflexivity|]; intros _; right; match goal with H : is_op_size _ = true -> _ |- _ => specialize (H eq_refl) end; lia
          | left; right; right; right; right; left; auto ].
  - destruct (op_param E e s1) as [k s2|c2 s2|r|] eqn:Ep; try discriminate.
    2:{ intros [= <- <-]. destruct Hp as (Hc & Hl & _). split; [exact Hl|]. left. right. right. right. left. exact Hc. }
    destruct Hp as (Hl2 & Hb2 & _).
    assert (Ha2 : ar s2 = a /\ d_op (dc s2) = d_op d /\ (is_0F (e_op e) = true -> dc s2 = dc s1)).
    { revert Ep. unfold op_param. destruct (e_names e) eqn:Hn; [|intros [= <- <-]; auto]. unfold get_modrm_nocheck, get_modrm, bind. unfold s1 at 1. rewrite fetch8_any by assumption. cbn.
      intros [= <- <-]. split; [reflexivity|]. split; [reflexivity|]. intros _. unfold dd_ipoff. cbn. f_equal. lia. }
    destruct Ha2 as (Ha2 & Hd2 & Hdc2).
    intros Hr. destruct (Z.eqb_spec c E_BUG) as [->|Nb].
    + assert (K : (may_bug (e_op e) = true /\ d_op d = true /\ e_op e <> OExt0F) \/ (is_0F (e_op e) = true /\ d_op d = true /\ ipbyte a (d_ipoff d + 1) = 175) ).
      { destruct (is_0F (e_op e)) eqn:Hz; [right|left].
        - destruct (e_op e) eqn:Eo; try discriminate Hz. unfold exec in Hr. rewrite <- Ha2 in F, W. destruct s2 as [a2 d2 g2 n2 l2]. cbn [ar dc] in *.
          erewrite bind_ok in Hr by (apply fetch8_any; assumption). cbn beta in Hr. rewrite (Hdc2 eq_refl) in Hr. cbn [s1 dc dd_ipoff d_ipoff] in Hr. rewrite Ha2 in *.
          destruct (ca_op0F (ipbyte a (d_ipoff d + 1))) as [e2|] eqn:E2; [|discriminate].
          apply exec1_bug in Hr; [|exact Hb2|].
          + destruct Hr as [Hm Hop]. split; [reflexivity|]. split; [exact Hop|]. apply (op_table_AF _ e2); try assumption. apply (ipbyte_range _ _ F W).
          + intros K. unfold ca_op0F in E2.
            pose proof (PTop.ca_table (fun e => negb (is_0F (e_op e))) caOperations0F _ e2 ltac:(vm_compute; reflexivity) E2) as T. cbn beta in T. rewrite K in T. discriminate.
        - assert (exec1 E (e_op e) k s2 = Err E_BUG s') as Hr'. { destruct (e_op e); try discriminate Hz; exact Hr. }
          apply exec1_bug in Hr'; [|exact Hb2|intros K; rewrite K in Hz; discriminate]. destruct Hr' as [Hm Hop]. split; [exact Hm|]. split; [congruence|]. intros K; rewrite K in Hz; discriminate. }
      pose proof (says_exec (fun _ => True) I (e_op e) k (fun _ => I) (fun _ => I) (fun _ => I) (fun _ => I) (fun _ => I) s2 Hb2) as Hx. rewrite Hr in Hx. destruct Hx as (_ & Hlx & _).
      split; [rewrite Hlx; exact Hl2|]. left. right. right. right. right. right. split; [reflexivity|]. destruct K as [(K1 & K2 & K3)|(K1 & K2 & K3)]; (split; [exact K2|]).
      * assert (inl b [105; 107] = true) as Hi. { match goal with H : may_bug _ && _ = true -> _ |- _ => apply H end. rewrite K1. destruct (e_op e); try reflexivity. congruence. }
        apply inl_in in Hi. cbn [In] in Hi. intuition lia.
      * right. right. split; [|exact K3]. match goal with H : is_0F _ = true -> _ |- _ => specialize (H K1) end. lia.
    + assert (Hx : says (fun c => c = E_BADMEM \/ (c = E_HALT /\ is_hlt (e_op e) = true) \/ (c = E_DIVERR /\ may_div (e_op e) = true) \/ (c = E_UNDEF /\ may_undef (e_op e) = true) \/ (c = E_BUG)) (exec E (e_op e) k)).
      { apply says_exec; auto 8. intros K. rewrite Hpre in K. discriminate. }
      specialize (Hx s2 Hb2). rewrite Hr in Hx. destruct Hx as (Hc & Hl & _).
      split; [rewrite Hl; exact Hl2|]. left. destruct Hc as [Hc|[[-> Hc]|[[-> Hc]|[[-> Hc]|Hc]]]]; [tauto| | | |congruence].
      * right. left. split; [reflexivity|]. match goal with H : is_hlt _ = true -> _ |- _ => specialize (H Hc) end. lia.
      * right. right. left. split; [reflexivity|]. match goal with H : may_div _ = true -> _ |- _ => specialize (H Hc) end. match goal with H : inl b _ = true |- _ => apply inl_in in H; cbn [In] in H end. unfold divides. intuition lia.
      * right. right. right. right. left. split; [reflexivity|]. apply inl_in. auto.
Qed.
Lemma loop_codes n : forall s c s', flat E base (ar s) -> wf_regs (ar s) -> byte_memory s -> op_loop E n s = Err c s' ->
  lastnull s' = lastnull s /\
  exists k op, 0 <= k /\ (forall i, 0 <= i < k -> prefix_byte (ipbyte (ar s) (d_ipoff (dc s) + i))) /\ cause (ar s) op (d_ipoff (dc s) + k) c /\
   (op = true -> d_op (dc s) = true \/ exists i, 0 <= i < k /\ ipbyte (ar s) (d_ipoff (dc s) + i) = 0x66).
Proof.
  induction n as [|n IH]; intros s c s' F W Hby; cbn [op_loop]; [discriminate|]. destruct (op_once E s) as [u s1|c1 s1|r|] eqn:E1; try discriminate.
  destruct (once_codes s c1 s1 F W Hby E1) as [Hl [Hc|(-> & Hp & Ha & Hd & Hop)]].
  - replace (c1 =? E_CONTINUE) with false by (unfold cause, E_BREAK, E_HALT, E_DIVERR, E_BADMEM, E_UNDEF, E_BUG, E_CONTINUE in *; lia). intros [= <- <-]. split; [exact Hl|].
    exists 0, (d_op (dc s)). split; [lia|]. split; [lia|]. rewrite Z.add_0_r. split; [exact Hc|]. auto.
  - change (E_CONTINUE =? E_CONTINUE) with true. cbv iota. intros H. rewrite <- Ha in F, W. assert (Hby1 : byte_memory s1) by (intros x b0; rewrite Ha; apply Hby).
    destruct (IH s1 c s' F W Hby1 H) as (Hl2 & k & op & Hk & Hpre & Hc & Ho). split; [congruence|].
    rewrite Ha, Hd in *. exists (k + 1), op. split; [lia|]. split; [|split].
    + intros i Hi. destruct (Z.eq_dec i 0) as [->|N]; [rewrite Z.add_0_r; exact Hp|]. replace (d_ipoff (dc s) + i) with (d_ipoff (dc s) + 1 + (i - 1)) by lia. apply Hpre. lia.
    + replace (d_ipoff (dc s) + (k + 1)) with (d_ipoff (dc s) + 1 + k) by lia. exact Hc.
    + intros K. destruct (Ho K) as [K1|(i & Hi & K1)]; [destruct (Hop K1) as [K2|K2]; [auto|right; exists 0; rewrite Z.add_0_r; split; [lia|exact K2]]|].
      right. exists (i + 1). split; [lia|]. replace (d_ipoff (dc s) + (i + 1)) with (d_ipoff (dc s) + 1 + i) by lia. exact K1.
Qed.
Lemma loop_ok_null n s u s' : byte_memory s -> op_loop E n s = Ok u s' -> lastnull s' = lastnull s.
Proof.
  revert s. induction n as [|n IH]; intros s Hb; cbn [op_loop]; [discriminate|].
  pose proof (says_once (fun _ => True) I I I I I I I s Hb) as H. destruct (op_once E s) as [u1 s1|c1 s1|r|] eqn:E1; try discriminate.
  - intros [= <- <-]. apply H.
  - destruct (Z.eqb_spec c1 E_CONTINUE) as [->|]; [|discriminate]. intros K. destruct H as (_ & Hl & Hb1). rewrite (IH _ Hb1 K). exact Hl.
Qed.
(** The 00 00 check. *)
Lemma rd_code w cs ip s c s' : byte_memory s -> rd E w cs ip s = Err c s' -> c = E_BADMEM.
Proof. intros Hb H. pose proof (says_rd (fun c => c = E_BADMEM) eq_refl w cs ip s Hb) as K. rewrite H in K. apply K. Qed.
Lemma null_codes cs ip s c s' : byte_memory s -> null_hack E cs ip s = Err c s' -> c = E_BADMEM \/
  (c = E_BREAK /\ s' = s /\ lastnull s = true /\ rd E 8 cs ip s = Ok 0 s /\ rd E 8 cs (ip + 1) s = Ok 0 s).
Proof.
  intros Hb. unfold null_hack, bind, getD, gets. destruct (_ =? 2); [|discriminate].
  destruct (rd E 8 cs ip s) as [b1 s1|c1 s1|r|] eqn:R1; try discriminate; [|intros [= <- <-]; left; apply (rd_code _ _ _ _ _ _ Hb R1)].
  pose proof (rd_st _ _ _ _ _ _ _ R1) as ->.
  destruct (rd E 8 cs (ip + 1) s) as [b2 s2|c2 s2|r|] eqn:R2; try discriminate; [|intros [= <- <-]; left; apply (rd_code _ _ _ _ _ _ Hb R2)].
  pose proof (rd_st _ _ _ _ _ _ _ R2) as ->. destruct (Z.eqb_spec b1 0) as [->|]; [|discriminate]. destruct (Z.eqb_spec b2 0) as [->|]; [|discriminate]. cbn [andb].
  destruct (lastnull s) eqn:El; [|discriminate]. intros [= <- <-]. right. auto.
Qed.
Lemma dump_codes n : forall cs i s c s', byte_memory s -> dump_bytes E n cs i s = Err c s' -> c = E_BADMEM.
Proof.
  induction n as [|n IH]; intros cs i s c s' Hb; cbn [dump_bytes]; [discriminate|]. unfold bind.
  destruct (rd E 8 cs i s) as [b s1|c1 s1|r|] eqn:R; try discriminate; [pose proof (rd_st _ _ _ _ _ _ _ R) as ->; apply IH, Hb|]. intros [= <- <-]. apply (rd_code _ _ _ _ _ _ Hb R).
Qed.
Lemma trace_codes cs ip s c s' : byte_memory s -> trace_dump E cs ip s = Err c s' -> c = E_BADMEM.
Proof. intros Hb. unfold trace_dump, bind, gets, getD, gets. destruct (1 <=? dbg s); [|discriminate]. destruct (_ <? 0); [discriminate|]. apply dump_codes, Hb. Qed.
Lemma null_bytes cs ip s u s' : null_hack E cs ip s = Ok u s' -> ar s' = ar s.
Proof.
  unfold null_hack, bind, getD, gets. destruct (_ =? 2); [|intros [= <- <-]; reflexivity].
  destruct (rd E 8 cs ip s) as [b1 s1|c1 s1|r|] eqn:R1; try discriminate. pose proof (rd_st _ _ _ _ _ _ _ R1) as ->.
  destruct (rd E 8 cs (ip + 1) s) as [b2 s2|c2 s2|r|] eqn:R2; try discriminate. pose proof (rd_st _ _ _ _ _ _ _ R2) as ->.
  destruct (_ && _); [|intros [= <- <-]; reflexivity]. destruct (lastnull s); [discriminate|]. intros [= <- <-]; reflexivity.
Qed.
Lemma callint_codes s c s' : byte_memory s -> int_callint E 0 s = Err c s' -> c = E_BADMEM.
Proof. intros Hb H. pose proof (says_callint0 (fun c => c = E_BADMEM) eq_refl s Hb) as S. rewrite H in S. apply S. Qed.
Lemma loop_bytes n s : byte_memory s -> match op_loop E n s with Ok _ s' => byte_memory s' /\ lastnull s' = lastnull s | Err c s' => byte_memory s' /\ lastnull s' = lastnull s | _ => True end.
Proof.
  revert s. induction n as [|n IH]; intros s Hb; cbn [op_loop]; [exact I|].
  pose proof (says_once (fun _ => True) I I I I I I I s Hb) as H. destruct (op_once E s) as [u1 s1|c1 s1|r|] eqn:E1; try exact I.
  - destruct H as (? & ? & ?). auto.
  - destruct H as (_ & Hl & Hb1). destruct (Z.eqb_spec c1 E_CONTINUE) as [->|]; [|auto]. specialize (IH s1 Hb1). destruct (op_loop E n s1); auto; destruct IH; split; congruence || assumption.
Qed.
Theorem run_codes s c s' : flat E base (ar s) -> wf_state s -> run_one E s = Err c s' -> flat E base (ar s') -> reason s s' c.
Proof.
  intros F Ws. assert (W : wf_regs (ar s)) by apply Ws. assert (Hby : byte_memory s) by (exact (ws_bytes _ Ws)).
  unfold run_one. destruct ((r_ip (ar s) =? 65535) && (r_cs (ar s) =? 65535)) eqn:H1; [intros [= <- <-] _; constructor; unfold magic; lia|].
  destruct ((r_cs (ar s) =? 47104) && (r_ip (ar s) <? 256)).
  { pose proof (says_hle (fun c => c = E_BADMEM) (r_ip (ar s)) s Hby) as Hh. destruct (call_hle E (r_ip (ar s)) s) as [u s1|c1 s1|r|]; try discriminate.
    - destruct (x_iret E s1); discriminate.
    - intros [= <- <-] _. destruct Hh as [-> _]. constructor. }
  destruct (do_opcode E s) as [u s1|c1 s1|r|] eqn:Hd; try discriminate.
  revert Hd. unfold do_opcode, bind, getA, gets, upd_dc, modify. destruct (icount _ =? 2147483647); [discriminate|].
  match goal with |- context [op_loop E 6 ?x] => set (s0 := x) end.
  assert (A0 : ar s0 = ar s) by reflexivity. assert (L0 : lastnull s0 = lastnull s) by reflexivity. assert (D0 : d_ipoff (dc s0) = 0) by reflexivity. assert (P0 : d_op (dc s0) = false) by reflexivity. clearbody s0.
  assert (Hb0 : byte_memory s0) by (intros x b; rewrite A0; apply Hby).
  pose proof (loop_bytes 6 s0 Hb0) as Hb2.
  destruct (op_loop E 6 s0) as [u2 s2|c2 s2|r|] eqn:El; try discriminate; destruct Hb2 as [Hb2 Hn2].
  2:{ intros [= -> ->]. destruct (Z.eqb_spec c1 E_DIVERR) as [->|N]. { intros H _. rewrite (callint_codes _ _ _ Hb2 H). constructor. }
      intros [= <- <-] _. rewrite <- A0 in F, W. destruct (loop_codes 6 s0 c1 s1 F W Hb0 El) as (_ & k & op & Hk & Hp & Hc & Ho). rewrite A0, D0 in *. cbn [Z.add] in Hc.
      assert (Hp' : forall i, 0 <= i < k -> prefix_byte (ipbyte (ar s) i)) by exact Hp. clear Hp.
      unfold cause in Hc. destruct Hc as [[-> Hc]|[[-> Hc]|[[-> Hc]|[->|[[-> Hc]|(-> & Hop & Hc)]]]]].
      - apply r_break. exists k. auto.
      - apply r_halt. exists k. auto.
      - congruence.
      - constructor.
      - apply r_undef. exists k. auto.
      - apply r_bug. exists k. split; [exact Hk|]. split; [exact Hp'|]. split; [destruct (Ho Hop) as [K|K]; [congruence|exact K]|exact Hc]. }
  pose proof (says_advance (fun _ => False) s2 Hb2) as Ha. destruct (advance_ip s2) as [u3 s3|c3 s3|r|]; try discriminate; [|destruct Ha as [[] _]]. destruct Ha as (Hl3 & Hb3 & _).
  destruct (null_hack E (r_cs (ar s)) (r_ip (ar s)) s3) as [u4 s4|c4 s4|r|] eqn:En; try discriminate.
  - intros Ht. rewrite (trace_codes _ _ _ _ _ ltac:(intros x b; rewrite (null_bytes _ _ _ _ _ En); apply Hb3) Ht). intros [= <- <-] _. constructor.
  - intros [= -> ->]. destruct (null_codes _ _ _ _ _ Hb3 En) as [->|(-> & -> & Hl & R1 & R2)]; [intros [= <- <-] _; constructor|]. intros [= <- <-] Fb. apply r_zeros; [congruence|].
    destruct s3 as [a3 d3 g3 n3 l3]. unfold zeros. cbn [ar] in *. rewrite (rd_flat E base) in R1, R2 by (try assumption; try apply W; unfold width; lia).
    injection R1 as R1. injection R2 as R2. rewrite mem8 in R1, R2. unfold wrap in R1, R2. change (2 ^ 16) with 65536 in R1, R2.
    rewrite (Z.mod_small (r_ip (ar s))) in R1 by (destruct (wf_ip _ W); auto). auto.
Qed.
End Codes.
