(** Precise errors: an instruction that ends with an error has not changed the architectural state.  Handlers are a decoding
    phase that can fail but changes only scratch fields, followed by an execution phase that cannot fail when all blocks are mapped. *)
From Verif Require Import Base Cpu Alu Ops Machine Spec SpecRun SpecTop SpecCodes PBase PMem PRun PFrame PKeep2 PKeep3 PTop PTop3 PCodes PFoot.

Section Precise.
Context (E : env) (nop : bool).
Definition mapped (a : arch) : Prop := null_check E = true -> forall b, 0 <= b < 272 -> mtab a b = 0 -> zero_null_ok E = true /\ b = 0.
Context (KM : forall h n s, mtab (ar (callback E h n s)) = mtab (ar s)).
Definition inv (s : st) : Prop := mapped (ar s) /\ (nop = true -> d_op (dc s) = false).
(** Decoding: keeps the architectural state, may fail. *)
Definition dec_ {X} (m : M X) : Prop := forall s, inv s -> match m s with Ok _ s' => ar s' = ar s /\ (nop = true -> d_op (dc s') = false) | Err _ s' => ar s' = ar s | _ => True end.
(** Execution: does not fail. *)
Definition nof {X} (m : M X) : Prop := forall s, inv s -> match m s with Ok _ s' => mtab (ar s') = mtab (ar s) /\ (nop = true -> dc s' = dc s \/ d_op (dc s') = false) | Err _ _ => False | _ => True end.
(** Either: a failure leaves the architectural state alone. *)
Definition prc {X} (m : M X) : Prop := forall s, inv s -> match m s with Ok _ s' => mtab (ar s') = mtab (ar s) /\ (nop = true -> d_op (dc s') = false) | Err _ s' => ar s' = ar s | _ => True end.
Lemma dec_bind {X Y} (m : M X) (f : X -> M Y) : dec_ m -> (forall x, dec_ (f x)) -> dec_ (bind m f).
Proof.
  intros H1 H2 s Hs. unfold bind. specialize (H1 s Hs). destruct (m s) as [x s'|c s'|r|]; auto. destruct H1 as [H1 H3].
  assert (Hs' : inv s') by (split; [rewrite H1; apply Hs|exact H3]). specialize (H2 x s' Hs'). destruct (f x s'); auto; [|congruence]. destruct H2 as [H2 H4]. split; [congruence|exact H4].
Qed.
Lemma nof_bind {X Y} (m : M X) (f : X -> M Y) : nof m -> (forall x, nof (f x)) -> nof (bind m f).
Proof.
  intros H1 H2 s Hs. unfold bind. specialize (H1 s Hs). destruct (m s) as [x s'|c s'|r|]; auto. destruct H1 as [H1 H3].
  assert (Hd : nop = true -> d_op (dc s') = false) by (intros K; destruct (H3 K) as [K1|K1]; [rewrite K1; apply Hs, K|exact K1]).
  assert (Hs' : inv s') by (split; [unfold mapped; rewrite H1; apply Hs|exact Hd]). specialize (H2 x s' Hs'). destruct (f x s'); auto. destruct H2 as [H2 H4].
  split; [congruence|]. intros K. destruct (H4 K) as [K1|K1]; [right; rewrite K1; apply Hd, K|right; exact K1].
Qed.
Lemma prc_dec {X} (m : M X) : dec_ m -> prc m.
Proof. intros H s Hs. specialize (H s Hs). destruct (m s); auto. destruct H as [H1 H2]. split; [congruence|exact H2]. Qed.
Lemma prc_nof {X} (m : M X) : nof m -> prc m.
Proof. intros H s Hs. specialize (H s Hs). destruct (m s); auto; [|contradiction]. destruct H as [H1 H2]. split; [exact H1|]. intros K. destruct (H2 K) as [K1|K1]; [rewrite K1; apply Hs, K|exact K1]. Qed.
Lemma prc_bind {X Y} (m : M X) (f : X -> M Y) : dec_ m -> (forall x, prc (f x)) -> prc (bind m f).
Proof.
  intros H1 H2 s Hs. unfold bind. specialize (H1 s Hs). destruct (m s) as [x s'|c s'|r|]; auto. destruct H1 as [H1 H3].
  assert (Hs' : inv s') by (split; [rewrite H1; apply Hs|exact H3]). specialize (H2 x s' Hs'). destruct (f x s'); auto; [|congruence]. destruct H2 as [H2 H4]. split; [congruence|exact H4].
Qed.
Lemma prc_bindn {X Y} (m : M X) (f : X -> M Y) : prc m -> (forall x, nof (f x)) -> prc (bind m f).
Proof.
  intros H1 H2 s Hs. unfold bind. specialize (H1 s Hs). destruct (m s) as [x s'|c s'|r|]; auto. destruct H1 as [H1 H3].
  assert (Hs' : inv s') by (split; [unfold mapped; rewrite H1; apply Hs|exact H3]). specialize (H2 x s' Hs'). destruct (f x s'); auto; [|contradiction]. destruct H2 as [H2 H4].
  split; [congruence|]. intros K. destruct (H4 K) as [K1|K1]; [rewrite K1; apply H3, K|exact K1].
Qed.
(** *** Primitives *)
Lemma d_ret {X} (x : X) : dec_ (ret x). Proof. intros s Hs. split; [reflexivity|apply Hs]. Qed.
Lemma d_err {X} c : dec_ (@err X c). Proof. intros s Hs. reflexivity. Qed.
Lemma d_undef {X} r : dec_ (@undef X r). Proof. intros s Hs. exact I. Qed.
Lemma d_getA {X} (f : arch -> X) : dec_ (getA f). Proof. intros s Hs. split; [reflexivity|apply Hs]. Qed.
Lemma d_getD {X} (f : dec -> X) : dec_ (getD f). Proof. intros s Hs. split; [reflexivity|apply Hs]. Qed.
Lemma d_upd_dc f : (forall d, d_op (f d) = d_op d) -> dec_ (upd_dc f). Proof. intros H s Hs. split; [reflexivity|]. intros K. cbn. rewrite H. apply Hs, K. Qed.
Lemma d_hload w p : dec_ (hload w p). Proof. intros s Hs. unfold hload. destruct (load_bytes _ _ _); [split; [reflexivity|apply Hs]|exact I]. Qed.
Lemma d_getptr sg o : dec_ (getptr E sg o). Proof. intros s Hs. unfold getptr. cbv zeta. destruct (_ <? 272); [|exact I]. destruct (_ && _ && _); [reflexivity|split; [reflexivity|apply Hs]]. Qed.
Lemma d_getseg c : dec_ (getseg c). Proof. intros s Hs. unfold getseg. destruct (sreg_of _ _); [split; [reflexivity|apply Hs]|exact I]. Qed.
Lemma d_chkseg c : dec_ (chkseg c). Proof. intros s Hs. unfold chkseg. destruct (sreg_of _ _); [split; [reflexivity|apply Hs]|exact I]. Qed.
Lemma d_load w p : dec_ (load w p). Proof. destruct p; [apply d_getA|apply d_hload]. Qed.
Ltac kp := split; [reflexivity|auto].
Lemma n_ret {X} (x : X) : nof (ret x). Proof. intros s Hs. kp. Qed.
Lemma n_undef {X} r : nof (@undef X r). Proof. intros s Hs. exact I. Qed.
Lemma n_fuel {X} : nof (fun _ => @Fuel X). Proof. intros s Hs. exact I. Qed.
Lemma n_getA {X} (f : arch -> X) : nof (getA f). Proof. intros s Hs. kp. Qed.
Lemma n_getD {X} (f : dec -> X) : nof (getD f). Proof. intros s Hs. kp. Qed.
Lemma n_upd_dc f : (forall d, d_op (f d) = d_op d) -> nof (upd_dc f). Proof. intros H s Hs. split; [reflexivity|]. intros K. right. cbn. rewrite H. apply Hs, K. Qed.
Lemma n_upd_ar f : (forall a, mtab (f a) = mtab a) -> nof (upd_ar f). Proof. intros H s Hs. split; [apply H|]. auto. Qed.
Lemma n_hload w p : nof (hload w p). Proof. intros s Hs. unfold hload. destruct (load_bytes _ _ _); [kp|exact I]. Qed.
Lemma n_hstore w p v : nof (hstore w p v). Proof. intros s Hs. unfold hstore. destruct (valid_bytes _ _ _); [kp|exact I]. Qed.
Lemma n_getptr sg o : nof (getptr E sg o).
Proof.
  intros s [Hs _]. unfold getptr. cbv zeta. destruct (Z.ltb_spec (wrap 32 (sg * 16 + o) / 4096) 272) as [Hb|]; [|exact I].
  destruct (_ && _ && _) eqn:K; [|split; [reflexivity|auto]]. apply andb_true_iff in K. destruct K as [K K2]. apply andb_true_iff in K. destruct K as [K K1]. apply Z.eqb_eq in K2.
  assert (H0 : 0 <= wrap 32 (sg * 16 + o) / 4096) by (apply Z.div_pos; [apply (Z.mod_pos_bound (sg * 16 + o) (2 ^ 32)); reflexivity|lia]).
  destruct (Hs K _ (conj H0 Hb) K2) as [Hz Hz2]. rewrite Hz, Hz2 in K1. discriminate.
Qed.
Lemma n_getseg c : nof (getseg c). Proof. intros s Hs. unfold getseg. destruct (sreg_of _ _); [kp|exact I]. Qed.
Lemma n_chkseg c : nof (chkseg c). Proof. intros s Hs. unfold chkseg. destruct (sreg_of _ _); [kp|exact I]. Qed.
Lemma sreg_set_map c v a a' : sreg_set c v a = Some a' -> mtab a' = mtab a.
Proof. unfold sreg_set. repeat (match goal with |- context [match ?x with _ => _ end] => destruct x end); try discriminate; intros [= <-]; reflexivity. Qed.
Lemma n_setseg c v : nof (setseg c v). Proof. intros s Hs. unfold setseg. destruct (sreg_set _ _ _) as [a|] eqn:K; [|exact I]. split; [apply (sreg_set_map _ _ _ _ K)|auto]. Qed.
Lemma n_set_gpr p w v : nof (set_gpr p w v). Proof. apply n_upd_ar. reflexivity. Qed.
Lemma n_load w p : nof (load w p). Proof. destruct p; [apply n_getA|apply n_hload]. Qed.
Lemma n_store w p v : nof (store w p v). Proof. destruct p; [apply n_set_gpr|apply n_hstore]. Qed.
Lemma n_io_in w p : nof (io_in E w p). Proof. intros s Hs. kp. Qed.
Lemma n_io_out w p v : nof (io_out w p v). Proof. intros s Hs. kp. Qed.

Ltac dst :=
  lazymatch goal with
  | |- dec_ (bind _ _) => apply dec_bind; [|intros ?]
  | |- dec_ (ret _) => apply d_ret
  | |- dec_ (err _) => apply d_err
  | |- dec_ (undef _) => apply d_undef
  | |- dec_ (getA _) => apply d_getA
  | |- dec_ (getD _) => apply d_getD
  | |- dec_ (upd_dc _) => apply d_upd_dc; reflexivity
  | |- dec_ (hload _ _) => apply d_hload
  | |- dec_ (getptr _ _ _) => apply d_getptr
  | |- dec_ (getseg _) => apply d_getseg
  | |- dec_ (chkseg _) => apply d_chkseg
  | |- dec_ (load _ _) => apply d_load
  | |- dec_ (if ?b then _ else _) => destruct b
  | |- dec_ (let '(_, _) := ?e in _) => destruct e
  | |- dec_ (match ?e with _ => _ end) => destruct e
  | |- dec_ (let _ := _ in _) => cbv zeta
  | |- dec_ (get_gpr _ _) => apply d_getA
  | |- dec_ (getW _) => apply d_getA
  | |- dec_ (getDw _) => apply d_getA
  | |- dec_ (getL _) => apply d_getA
  | |- dec_ (getH _) => apply d_getA
  | |- dec_ getflags => apply d_getA
  | |- dec_ next_ip => unfold next_ip
  | |- dec_ dont_change_ip => apply d_upd_dc; reflexivity
  | |- dec_ opw => unfold opw
  | |- dec_ (rd _ _ _ _) => unfold rd
  | |- dec_ (fetch _ _) => unfold fetch
  | |- dec_ (fetch8 _) => unfold fetch8, fetch
  | |- dec_ (fetch16 _) => unfold fetch16, fetch
  | |- dec_ (fetch32 _) => unfold fetch32, fetch
  | |- dec_ (fetch8s _) => unfold fetch8s
  | |- dec_ (get_modrm _) => unfold get_modrm
  | |- dec_ (ea_segment _ _) => unfold ea_segment
  | |- dec_ (sib_index _) => unfold sib_index
  | |- dec_ data_seg => unfold data_seg
  | |- dec_ (moffs _) => unfold moffs
  | |- dec_ (peek8 _) => unfold peek8
  end.
Ltac dw := repeat dst.
Lemma d_dofunc m b d : dec_ (dofunc E m b d). Proof. unfold dofunc. dw. Qed.
Lemma d_dofunc32 m b d : dec_ (dofunc32 E m b d). Proof. unfold dofunc32. dw. Qed.
Lemma d_mmm m : dec_ (get_mmm E m). Proof. unfold get_mmm. repeat (first [apply d_dofunc|apply d_dofunc32|dst]). Qed.
Lemma d_modm m : dec_ (decode_modm E m). Proof. unfold decode_modm. repeat (first [apply d_mmm|dst]). Qed.
Lemma d_modmx m : dec_ (decode_modmx E m). Proof. unfold decode_modmx. repeat (first [apply d_mmm|dst]). Qed.
Lemma d_parse : dec_ (parse_modrm E). Proof. unfold parse_modrm. repeat (first [apply d_modm|dst]). Qed.
Lemma d_parsex : dec_ (parse_modrmx E). Proof. unfold parse_modrmx. repeat (first [apply d_modmx|dst]). Qed.
Lemma d_modrm : dec_ (get_modrm E). Proof. dw. Qed.
Lemma d_nocheck : dec_ (get_modrm_nocheck E).
Proof. intros s Hs. pose proof (d_modrm s Hs) as H. unfold get_modrm_nocheck. destruct (get_modrm E s); auto. Qed.
Lemma d_farptr : dec_ (parse_farptr E). Proof. unfold parse_farptr. repeat (first [apply d_mmm|dst]). Qed.
Lemma d_param e : dec_ (op_param E e). Proof. unfold op_param. repeat (first [apply d_nocheck|dst]). Qed.
Ltac dst1 :=
  lazymatch goal with
  | |- dec_ (get_mmm _ _) => apply d_mmm
  | |- dec_ (decode_modm _ _) => apply d_modm
  | |- dec_ (decode_modmx _ _) => apply d_modmx
  | |- dec_ (parse_modrm _) => apply d_parse
  | |- dec_ (parse_modrmx _) => apply d_parsex
  | |- dec_ (get_modrm_nocheck _) => apply d_nocheck
  | |- dec_ (parse_farptr _) => apply d_farptr
  | |- dec_ (op_param _ _) => apply d_param
  | _ => dst
  end.
Ltac nst :=
  lazymatch goal with
  | |- nof (bind _ _) => apply nof_bind; [|intros ?]
  | |- nof (ret _) => apply n_ret
  | |- nof (undef _) => apply n_undef
  | |- nof (getA _) => apply n_getA
  | |- nof (getD _) => apply n_getD
  | |- nof (upd_ar _) => apply n_upd_ar; reflexivity
  | |- nof (upd_dc _) => apply n_upd_dc; reflexivity
  | |- nof (hload _ _) => apply n_hload
  | |- nof (hstore _ _ _) => apply n_hstore
  | |- nof (getptr _ _ _) => apply n_getptr
  | |- nof (getseg _) => apply n_getseg
  | |- nof (chkseg _) => apply n_chkseg
  | |- nof (setseg _ _) => apply n_setseg
  | |- nof (load _ _) => apply n_load
  | |- nof (store _ _ _) => apply n_store
  | |- nof (io_in _ _ _) => apply n_io_in
  | |- nof (io_out _ _ _) => apply n_io_out
  | |- nof (if ?b then _ else _) => destruct b
  | |- nof (let '(_, _) := ?e in _) => destruct e
  | |- nof (match ?e with _ => _ end) => destruct e
  | |- nof (let _ := _ in _) => cbv zeta
  | |- nof (set_gpr _ _ _) => apply n_set_gpr
  | |- nof (setW _ _) => apply n_set_gpr
  | |- nof (setL _ _) => apply n_set_gpr
  | |- nof (setH _ _) => apply n_set_gpr
  | |- nof (set_ip _) => apply n_upd_ar; reflexivity
  | |- nof (set_cs _) => apply n_upd_ar; reflexivity
  | |- nof (set_flags _) => apply n_upd_ar; reflexivity
  | |- nof (get_gpr _ _) => apply n_getA
  | |- nof (getW _) => apply n_getA
  | |- nof (getDw _) => apply n_getA
  | |- nof (getL _) => apply n_getA
  | |- nof (getH _) => apply n_getA
  | |- nof getflags => apply n_getA
  | |- nof next_ip => unfold next_ip
  | |- nof dont_change_ip => apply n_upd_dc; reflexivity
  | |- nof opw => unfold opw
  | |- nof (upd_flags _) => unfold upd_flags
  | |- nof (rd _ _ _ _) => unfold rd
  | |- nof (wr _ _ _ _ _) => unfold wr
  | |- nof (fetch _ _) => unfold fetch
  | |- nof (fetch8 _) => unfold fetch8, fetch
  | |- nof (fetch16 _) => unfold fetch16, fetch
  | |- nof (fetch8s _) => unfold fetch8s
  | |- nof (push _ _) => unfold push
  | |- nof (pop _) => unfold pop
  | |- nof (pop_to _ _) => unfold pop_to
  | |- nof (alu_vals _ _ _ _ _) => unfold alu_vals
  | |- nof (alu2 _ _ _ _) => unfold alu2
  | |- nof (alu2i _ _ _ _) => unfold alu2i
  | |- nof (alu1 _ _ _) => unfold alu1
  | |- nof (copy _ _ _) => unfold copy
  | |- nof (xchg _ _ _) => unfold xchg
  | |- nof (jump_if _ _) => unfold jump_if
  | |- nof (push_imm _ _) => unfold push_imm
  | |- nof (do_shift _ _ _ _) => unfold do_shift
  | |- nof (do_dbl _ _ _ _ _) => unfold do_dbl
  | |- nof (imul2 _ _ _) => unfold imul2
  | |- nof (mul_body _ _) => unfold mul_body
  | |- nof (imul_body _ _) => unfold imul_body
  end.
Ltac nw := repeat nst.

Lemma n_hle n : nop = false -> nof (call_hle E n).
Proof. intros Hn s Hs. unfold call_hle. destruct (_ =? 0); [kp|]. split; [apply KM|]. rewrite Hn. discriminate. Qed.
Lemma n_str_body o w a b c d : nof (str_body E o w a b c d). Proof. unfold str_body. destruct o; nw. Qed.
Lemma n_str_loop n : forall o w m a b c d, nof (str_loop E n o w m a b c d).
Proof.
  induction n as [|n IH]; intros; cbn [str_loop]; [apply n_fuel|].
  repeat (lazymatch goal with |- nof (str_body _ _ _ _ _ _ _) => apply n_str_body | |- nof (str_loop _ _ _ _ _ _ _ _ _) => apply IH | _ => nst end).
Qed.
Lemma n_callint0 : nof (int_callint E 0). Proof. unfold int_callint. change ((0 <? 0) || (255 <? 0)) with false. cbv iota. nw. Qed.
Lemma n_advance : nof advance_ip. Proof. unfold advance_ip. nw. Qed.
(** Handlers. *)
Ltac pst Hn :=
  lazymatch goal with
  | |- prc (bind _ _) => first [apply prc_bind; [solve [repeat dst1]|intros ?] | apply prc_nof; solve [pn Hn] | apply prc_bindn; [|intros ?; solve [pn Hn]]]
  | |- prc (if ?b then _ else _) => destruct b
  | |- prc (let '(_, _) := ?e in _) => destruct e
  | |- prc (match ?e with _ => _ end) => destruct e
  | |- prc (let _ := _ in _) => cbv zeta
  | |- prc (misc_select _ _ _ _) => unfold misc_select
  | |- prc (div_body _ _) => unfold div_body
  | |- prc (idiv_body _ _) => unfold idiv_body
  | |- prc (call_interrupt _ _) => unfold call_interrupt
  | |- prc (loop_with _ _) => unfold loop_with
  | |- prc _ => first [apply prc_dec; solve [repeat dst1] | apply prc_nof; solve [pn Hn]]
  end
with pn Hn := repeat (lazymatch goal with |- nof (call_hle _ _) => apply n_hle; exact Hn | |- nof (str_loop _ _ _ _ _ _ _ _ _) => apply n_str_loop | _ => nst end).
Lemma prc_exec1 o p : nop = false -> o <> OEnter -> prc (exec1 E o p).
Proof.
  intros Hn Ho. destruct o; try congruence; cbn [exec1].
  all: try (match goal with |- prc ?h => let k := match h with ?f _ _ _ => f | ?f _ _ => f | ?f _ => f | _ => h end in
       let k := match k with ?f _ => f | _ => k end in unfold k end).
  all: try (solve [repeat (pst Hn)]).
  (* 66 *)
  unfold x_ovr_op. apply prc_bind; [apply d_getD|intros []]; [apply prc_dec, d_err|]. apply prc_dec, dec_bind; [|intros; apply d_err].
  intros s Hs. split; [reflexivity|]. rewrite Hn. discriminate.
Qed.
(** ENTER without an operand size prefix, or with nesting level 0 or 1. *)
Lemma n_enter_loop n : nop = true -> nof (enter_loop E n).
Proof.
  intros Hn. induction n as [|n IH]; cbn [enter_loop]; [apply n_ret|].
  intros s Hs. unfold bind at 1, getD, gets. rewrite (proj2 Hs Hn). revert s Hs. fold (@nof unit).
  match goal with |- forall s, inv s -> match ?m s with _ => _ end => change (nof m) end. repeat (first [exact IH|nst]).
Qed.
Lemma prc_enter_level0 size lv : lv mod 32 < 2 -> prc (
  push E (getW R_BP) ;;; ft <- getW R_SP ;;
  (if 1 <? lv mod 32 then enter_loop E (Z.to_nat (lv mod 32 - 1)) ;;; o <- getD d_op ;; if o then ret tt else push E (ret ft) else ret tt) ;;;
  setW R_BP ft ;;; sp <- getW R_SP ;; setW R_SP (sp - size)).
Proof. intros Hl. replace (1 <? lv mod 32) with false by lia. cbv iota. apply prc_nof. nw. Qed.
Lemma prc_enter_nop : nop = true -> prc (x_enter E).
Proof. intros Hn. unfold x_enter. apply prc_bind; [repeat dst1|intros size]. apply prc_bind; [repeat dst1|intros lv]. cbv zeta. apply prc_nof. repeat (first [apply n_enter_loop; exact Hn|nst]). Qed.
End Precise.

(** ** Whole instructions *)
Section Whole.
Context (E : env) (base : Z) (Q : quiet_host E) (KM : forall h n s, mtab (ar (callback E h n s)) = mtab (ar s)).
Lemma flat_mapped a : flat E base a -> mapped E a.
Proof. intros F Hn b Hb Ht. rewrite (fl_tab _ _ _ F b Hb) in Ht. pose proof (fl_base _ _ _ F). assert (b = 0) by lia. split; [apply (fl_null _ _ _ F Hn); lia|assumption]. Qed.
(** The one instruction that can fail after it has pushed BP. *)
Definition enter_wide (a : arch) (i : Z) : Prop := ipbyte a i = 0xC8 /\ 2 <= ipbyte a (i + 3) mod 32.
Lemma fetch16_any a d g n l : flat E base a -> wf_regs a -> exists v, fetch16 E (mkSt a d g n l) = Ok v (mkSt a (dd_ipoff (d_ipoff d + 2) d) g n l).
Proof.
  intros F W. unfold fetch16, fetch, bind, getA, getD, gets. cbn [ar dc]. rewrite (rd_flat E base) by (try assumption; try apply W; unfold width; lia). eexists. reflexivity.
Qed.
Lemma enter_precise s c s' : flat E base (ar s) -> wf_regs (ar s) -> x_enter E s = Err c s' -> ar s' = ar s \/ (d_op (dc s) = true /\ 2 <= ipbyte (ar s) (d_ipoff (dc s) + 2) mod 32).
Proof.
  intros F W H. pose proof (flat_mapped _ F) as Hm. destruct (d_op (dc s)) eqn:Hd.
  2:{ left. pose proof (prc_enter_nop E true KM eq_refl s (conj Hm (fun _ => Hd))) as K. rewrite H in K. exact K. }
  destruct s as [a d g n l]. cbn [ar dc] in *. unfold x_enter in H.
  destruct (fetch16_any a d g n l F W) as [sz Hsz]. erewrite bind_ok in H by exact Hsz.
  erewrite bind_ok in H by (apply (fetch8_any E base); assumption). cbv zeta in H. cbn [dd_ipoff d_ipoff] in H.
  destruct (Z.ltb_spec (ipbyte a (d_ipoff d + 2) mod 32) 2) as [Hl|Hl]; [left|right; auto].
  match type of H with ?m ?s1 = _ => assert (K : inv E false s1) by (split; [exact Hm|discriminate]); pose proof (prc_enter_level0 E false KM sz _ Hl s1 K) as P; rewrite H in P end. exact P.
Qed.

Lemma op_enter b e : 0 <= b < 256 -> ca_op b = Some e -> e_op e = OEnter -> b = 0xC8 /\ e_names e = false.
Proof.
  intros Hb He Hm. assert (K : forallb (fun b => match ca_op b with Some e => match e_op e with OEnter => (b =? 0xC8) && negb (e_names e) | _ => true end | None => true end) (map Z.of_nat (seq 0 256)) = true) by (vm_compute; reflexivity).
  rewrite forallb_forall in K. specialize (K b). assert (Hin : In b (map Z.of_nat (seq 0 256))). { apply in_map_iff. exists (Z.to_nat b). split; [lia|]. apply in_seq. lia. }
  specialize (K Hin). rewrite He, Hm in K. apply andb_true_iff in K. destruct K as [K1 K2]. split; [lia|]. destruct (e_names e); [discriminate|reflexivity].
Qed.
Lemma op0F_enter b e : ca_op0F b = Some e -> e_op e <> OEnter.
Proof.
  intros H K. unfold ca_op0F in H.
  pose proof (PTop.ca_table (fun e => match e_op e with OEnter => false | _ => true end) caOperations0F b e ltac:(vm_compute; reflexivity) H) as T. cbn beta in T. rewrite K in T. discriminate.
Qed.
Lemma once_precise s c s' : flat E base (ar s) -> wf_regs (ar s) -> op_once E s = Err c s' ->
  ar s' = ar s \/ (d_op (dc s) = true /\ enter_wide (ar s) (d_ipoff (dc s))).
Proof.
  intros F W. pose proof (flat_mapped _ F) as Hm. destruct s as [a d g n l]. cbn [ar dc] in *. unfold op_once. erewrite bind_ok by (apply (fetch8_any E base); assumption). cbn beta.
  assert (Hb : 0 <= ipbyte a (d_ipoff d) < 256) by (apply (ipbyte_range E base _ _ F W)). unfold enter_wide.
  set (b := ipbyte a (d_ipoff d)) in *. destruct (b =? 241); [intros [= <- <-]; left; reflexivity|].
  destruct (ca_op b) as [e|] eqn:He; [|intros [= <- <-]; left; reflexivity].
  set (s1 := mkSt a (dd_ipoff (d_ipoff d + 1) d) g n l). assert (I1 : inv E false s1) by (split; [exact Hm|discriminate]).
  pose proof (d_param E false e s1 I1) as Hp. unfold bind at 1. destruct (op_param E e s1) as [k s2|c2 s2|r|] eqn:Ep; try discriminate; [|intros [= <- <-]; left; exact Hp].
  destruct Hp as [Hp _]. change (ar s1) with a in Hp. assert (I2 : inv E false s2) by (split; [rewrite Hp; exact Hm|discriminate]).
  destruct (is_0F (e_op e)) eqn:Hz.
  - destruct (e_op e) eqn:Eo; try discriminate Hz. unfold exec, bind. pose proof (d_modrm E false s2 I2) as Hf. unfold get_modrm, bind in Hf.
    destruct (fetch8 E s2) as [b2 s3|c3 s3|r|]; try discriminate; [|intros [= <- <-]; left; congruence]. destruct Hf as [Hf _]. cbn in Hf.
    assert (I3 : inv E false s3) by (split; [rewrite Hf, Hp; exact Hm|discriminate]).
    destruct (ca_op0F b2) as [e2|] eqn:E2; [|intros [= <- <-]; left; congruence].
    intros H. pose proof (prc_exec1 E false KM (e_op e2) (e_arg e2) eq_refl (op0F_enter _ _ E2) s3 I3) as K. rewrite H in K. left. congruence.
  - assert (Hx : exec E (e_op e) k s2 = exec1 E (e_op e) k s2) by (destruct (e_op e); try discriminate Hz; reflexivity). rewrite Hx.
    assert (Dec : e_op e = OEnter \/ e_op e <> OEnter) by (destruct (e_op e); auto; right; discriminate). destruct Dec as [Eo|Eo].
    + rewrite Eo. cbn [exec1]. destruct (op_enter b e Hb He Eo) as [Hc Hn]. unfold op_param in Ep. rewrite Hn in Ep. injection Ep as <- <-.
      intros H. apply (enter_precise s1) in H; [|exact F|exact W]. cbn [s1 ar dc dd_ipoff d_op d_ipoff] in H. destruct H as [H|[H1 H2]]; [left; exact H|right]. split; [exact H1|]. split; [exact Hc|].
      replace (d_ipoff d + 3) with (d_ipoff d + 1 + 2) by lia. exact H2.
    + intros H. pose proof (prc_exec1 E false KM (e_op e) k eq_refl Eo s2 I2) as K. rewrite H in K. left. congruence.
Qed.
Lemma loop_precise n : forall s c s', flat E base (ar s) -> wf_regs (ar s) -> byte_memory s -> op_loop E n s = Err c s' ->
  ar s' = ar s \/ exists k, 0 <= k /\ (forall i, 0 <= i < k -> prefix_byte (ipbyte (ar s) (d_ipoff (dc s) + i))) /\ enter_wide (ar s) (d_ipoff (dc s) + k) /\
   (d_op (dc s) = true \/ exists i, 0 <= i < k /\ ipbyte (ar s) (d_ipoff (dc s) + i) = 0x66).
Proof.
  induction n as [|n IH]; intros s c s' F W Hby; cbn [op_loop]; [discriminate|]. destruct (op_once E s) as [u s1|c1 s1|r|] eqn:E1; try discriminate.
  pose proof (once_precise s c1 s1 F W E1) as P. destruct (Z.eqb_spec c1 E_CONTINUE) as [->|N].
  - destruct (once_codes E Q base s _ s1 F W Hby E1) as [_ [Hc|(_ & Hp & Ha & Hd & Hop)]]; [unfold cause, E_BREAK, E_HALT, E_DIVERR, E_BADMEM, E_UNDEF, E_BUG, E_CONTINUE in Hc; lia|].
    intros H. rewrite <- Ha in F, W. assert (Hby1 : byte_memory s1) by (intros x b0; rewrite Ha; apply Hby).
    destruct (IH s1 c s' F W Hby1 H) as [K|(k & Hk & Hpre & Hc & Ho)]; [left; congruence|right].
    rewrite Ha, Hd in *. exists (k + 1). split; [lia|]. split; [|split].
    + intros i Hi. destruct (Z.eq_dec i 0) as [->|N]; [rewrite Z.add_0_r; exact Hp|]. replace (d_ipoff (dc s) + i) with (d_ipoff (dc s) + 1 + (i - 1)) by lia. apply Hpre. lia.
    + replace (d_ipoff (dc s) + (k + 1)) with (d_ipoff (dc s) + 1 + k) by lia. exact Hc.
    + destruct Ho as [K1|(i & Hi & K1)]; [destruct (Hop K1) as [K2|K2]; [auto|right; exists 0; rewrite Z.add_0_r; split; [lia|exact K2]]|].
      right. exists (i + 1). split; [lia|]. replace (d_ipoff (dc s) + (i + 1)) with (d_ipoff (dc s) + 1 + i) by lia. exact K1.
  - intros [= <- <-]. destruct P as [P|[P1 P2]]; [left; exact P|right]. exists 0. split; [lia|]. split; [lia|]. rewrite Z.add_0_r. auto.
Qed.
Lemma nof_err {X} (m : M X) s c s' : nof E false m -> mapped E (ar s) -> m s = Err c s' -> False.
Proof. intros H Hm K. assert (I0 : inv E false s) by (split; [exact Hm|discriminate]). specialize (H s I0). rewrite K in H. exact H. Qed.
Lemma n_dump n : forall cs i, nof E false (dump_bytes E n cs i).
Proof. induction n as [|n IH]; intros; cbn [dump_bytes]; [apply n_ret; exact KM|]. apply nof_bind; [|intros; apply IH]. unfold rd. apply nof_bind; [apply n_getptr; exact KM|]. intros. apply n_hload; exact KM. Qed.
Theorem run_precise s c s' : flat E base (ar s) -> wf_state s -> run_one E s = Err c s' ->
  lastnull s' = lastnull s /\
  (ar s' = ar s \/ (c = E_BREAK /\ lastnull s = true) \/ 
   exists k, 0 <= k /\ (forall i, 0 <= i < k -> prefix_byte (ipbyte (ar s) i)) /\ enter_wide (ar s) k /\ exists i, 0 <= i < k /\ ipbyte (ar s) i = 0x66).
Proof.
  intros F Ws. assert (W : wf_regs (ar s)) by apply Ws. assert (Hby : byte_memory s) by (exact (ws_bytes _ Ws)). pose proof (flat_mapped _ F) as Hm.
  unfold run_one. destruct ((r_ip (ar s) =? 65535) && (r_cs (ar s) =? 65535)) eqn:H1; [intros [= <- <-]; split; [reflexivity|left; reflexivity]|].
  destruct ((r_cs (ar s) =? 47104) && (r_ip (ar s) <? 256)).
  { unfold call_hle. cbv zeta. destruct (_ =? 0); match goal with |- context [x_iret E ?x] => destruct (x_iret E x) end; discriminate. }
  destruct (do_opcode E s) as [u s1|c1 s1|r|] eqn:Hd; try discriminate.
  revert Hd. unfold do_opcode, bind, getA, gets, upd_dc, modify. destruct (icount _ =? 2147483647); [discriminate|].
  match goal with |- context [op_loop E 6 ?x] => set (s0 := x) end.
  assert (A0 : ar s0 = ar s) by reflexivity. assert (L0 : lastnull s0 = lastnull s) by reflexivity. assert (D0 : d_ipoff (dc s0) = 0) by reflexivity. assert (P0 : d_op (dc s0) = false) by reflexivity. clearbody s0.
  assert (Hb0 : byte_memory s0) by (intros x b; rewrite A0; apply Hby).
  assert (HL : match op_loop E 6 s0 with Ok _ s' | Err _ s' => mtab (ar s') = mtab (ar s0) | _ => True end).
  { assert (Hig : forall x, (fun _ : eff => false) x = false -> ig E mtab x).
    { intros x _. destruct x; cbn [ig]; try reflexivity; try (intros; apply KM). intros v a a'. apply sreg_set_map. }
    rewrite <- A0 in F, W. destruct (loop_foot E base Q mtab (fun _ => false) Hig 6 s0 F W Hb0) as [(k & _ & _ & K)|K]; [|exact K]. exfalso. revert K. unfold hits. generalize (eff_at (ipbyte (ar s0) (d_ipoff (dc s0) + k)) (ipbyte (ar s0) (d_ipoff (dc s0) + (k + 1)))).
    intros l. induction l; cbn; auto. discriminate. }
  pose proof (loop_bytes E Q 6 s0 Hb0) as Hb2. rewrite A0 in HL.
  destruct (op_loop E 6 s0) as [u2 s2|c2 s2|r|] eqn:El; try discriminate; destruct Hb2 as [Hb2 Hn2].
  2:{ intros [= -> ->]. assert (M1 : mapped E (ar s1)) by (unfold mapped; rewrite HL; exact Hm). destruct (Z.eqb_spec c1 E_DIVERR) as [->|N]. { intros H. exfalso. apply (nof_err _ _ _ _ (n_callint0 E false KM) M1 H). }
      intros [= <- <-]. split; [congruence|]. rewrite <- A0 in F, W. destruct (loop_precise 6 s0 c1 s1 F W Hb0 El) as [K|(k & Hk & Hp & Hc & Ho)]; [left; congruence|right; right].
      rewrite A0, D0, P0 in *. exists k. split; [exact Hk|]. split; [exact Hp|]. split; [exact Hc|]. destruct Ho as [Ho|Ho]; [discriminate|exact Ho]. }
  assert (M2 : mapped E (ar s2)) by (unfold mapped; rewrite HL; exact Hm).
  pose proof (says_advance (fun _ => False) s2 Hb2) as Ha. assert (I2 : inv E false s2) by (split; [exact M2|discriminate]). pose proof (n_advance E false s2 I2) as Hv.
  destruct (advance_ip s2) as [u3 s3|c3 s3|r|]; try discriminate; [|contradiction]. destruct Ha as (Hl3 & Hb3 & _). destruct Hv as [Hv _].
  assert (M3 : mapped E (ar s3)) by (unfold mapped; rewrite Hv; exact M2).
  assert (NR : forall o s c s', mapped E (ar s) -> rd E 8 (r_cs (ar (s0))) o s = Err c s' -> False).
  { intros o sx cx sy Mx K. refine (nof_err _ _ _ _ _ Mx K). unfold rd. apply nof_bind; [apply n_getptr; exact KM|intros; apply n_hload; exact KM]. }
  destruct (null_hack E (r_cs (ar s)) (r_ip (ar s)) s3) as [u4 s4|c4 s4|r|] eqn:En; try discriminate.
  - intros Ht. exfalso. pose proof (null_bytes _ _ _ _ _ _ En) as A4. revert Ht. unfold trace_dump, bind, gets, getD. destruct (1 <=? dbg s4); [|discriminate]. unfold gets. destruct (_ <? 0); [discriminate|].
    intros Ht. refine (nof_err _ _ _ _ (n_dump _ _ _) _ Ht). rewrite A4. exact M3.
  - intros [= <- <-]. destruct (null_codes _ _ _ _ _ _ Hb3 En) as [->|(-> & -> & Hl & R1 & R2)].
    + intros _. exfalso. revert En. unfold null_hack, getD. unfold bind at 1, gets. destruct (_ =? 2); [|discriminate]. unfold bind at 1. rewrite <- A0.
      destruct (rd E 8 (r_cs (ar s0)) (r_ip (ar s0)) s3) as [x1 t1|x1 t1|r|] eqn:R1; try discriminate; [|intros _; apply (NR _ _ _ _ M3 R1)]. pose proof (rd_st _ _ _ _ _ _ _ R1) as ->.
      unfold bind at 1. destruct (rd E 8 (r_cs (ar s0)) (r_ip (ar s0) + 1) s3) as [x2 t2|x2 t2|r|] eqn:R2; try discriminate; [|intros _; apply (NR _ _ _ _ M3 R2)]. pose proof (rd_st _ _ _ _ _ _ _ R2) as ->.
      unfold bind, modify, err, E_BREAK, E_BADMEM.
 destruct ((x1 =? 0) && (x2 =? 0)); [|intros K; discriminate K]. destruct (lastnull s3); intros K; discriminate K.
    + change (7 =? 5) with false. intros [= <- <-]. split; [congruence|]. right. left. split; [reflexivity|congruence].
Qed.
End Whole.
