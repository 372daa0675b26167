(** Two-run walk over all handlers: the instruction counter is never read, and the CPU type only by POPF. *)
From Verif Require Import Base Cpu Alu Ops Machine Spec SpecRun SpecSys SpecCodes SpecTop SpecIndep PBase PKeep PKeep2 PKeep3 PTop PTop2 PTop3 PCodes.

Section Indep.
Context (E : env) (b ln : bool) (c : Z).
Definition chg (a : arch) : arch := if b then a_cpu c a else a.
Definition sim (s1 s2 : st) : Prop := ar s2 = chg (ar s1) /\ dc s2 = dc s1 /\ dbg s2 = dbg s1 /\ (ln = false -> lastnull s2 = lastnull s1).
Definition sim0 (s1 s2 : st) : Prop := ar s2 = chg (ar s1) /\ dbg s2 = dbg s1 /\ (ln = false -> lastnull s2 = lastnull s1).
Context (CB : forall h n s1 s2, sim0 s1 s2 -> sim0 (callback E h n s1) (callback E h n s2)) (CD : forall h n s, dc (callback E h n s) = dc s).
Local Notation osim := agree.
Definition ind {X} (m : M X) : Prop := forall s1 s2, sim s1 s2 -> osim sim (m s1) (m s2).
Lemma i_bind {X Y} (m : M X) (f : X -> M Y) : ind m -> (forall x, ind (f x)) -> ind (bind m f).
Proof.
  intros H1 H2 s1 s2 S. unfold bind. specialize (H1 s1 s2 S). destruct (m s1) as [x t1|e t1|r|], (m s2) as [y t2|e' t2|r'|]; try contradiction; auto.
  destruct H1 as [<- H1]. apply (H2 x _ _ H1).
Qed.
Lemma i_ret {X} (x : X) : ind (ret x). Proof. intros s1 s2 S. split; [reflexivity|exact S]. Qed.
Lemma i_err {X} e : ind (@err X e). Proof. intros s1 s2 S. split; [reflexivity|exact S]. Qed.
Lemma i_undef {X} r : ind (@undef X r). Proof. intros s1 s2 S. reflexivity. Qed.
Lemma i_fuel {X} : ind (fun _ => @Fuel X). Proof. intros s1 s2 S. exact I. Qed.
Lemma i_getA {X} (f : arch -> X) : (forall v a, f (a_cpu v a) = f a) -> ind (getA f).
Proof. intros H s1 s2 S. split; [|exact S]. destruct S as [-> _]. unfold chg. destruct b; [symmetry; apply H|reflexivity]. Qed.
Lemma i_getD {X} (f : dec -> X) : ind (getD f). Proof. intros s1 s2 S. split; [|exact S]. destruct S as (_ & -> & _). reflexivity. Qed.
Lemma i_upd_ar f : (forall v a, f (a_cpu v a) = a_cpu v (f a)) -> ind (upd_ar f).
Proof. intros H s1 s2 (S1 & S2 & S3 & S4). split; [reflexivity|]. split; [|split; [exact S2|auto]]. cbn. rewrite S1. unfold chg. destruct b; [apply H|reflexivity]. Qed.
Lemma i_upd_dc f : ind (upd_dc f). Proof. intros s1 s2 (S1 & S2 & S3 & S4). split; [reflexivity|]. split; [exact S1|]. split; [cbn; rewrite S2; reflexivity|auto]. Qed.
Lemma chg_mem a : hmem (chg a) = hmem a. Proof. unfold chg. destruct b; reflexivity. Qed.
Lemma chg_tab a : mtab (chg a) = mtab a. Proof. unfold chg. destruct b; reflexivity. Qed.
Lemma chg_hle a : hle (chg a) = hle a. Proof. unfold chg. destruct b; reflexivity. Qed.
Lemma chg_sreg c0 a : sreg_of c0 (chg a) = sreg_of c0 a. Proof. unfold chg. destruct b; [|reflexivity]. unfold sreg_of. destruct c0 as [|p|p]; try reflexivity. Qed.
Lemma i_hload w p : ind (hload w p).
Proof. intros s1 s2 S. pose proof S as (S1 & _). unfold hload. rewrite S1, chg_mem. destruct (load_bytes _ _ _); [split; [reflexivity|exact S]|reflexivity]. Qed.
Lemma i_hstore w p v : ind (hstore w p v).
Proof.
  intros s1 s2 S. pose proof S as (S1 & S2 & S3 & S4). unfold hstore. rewrite S1, chg_mem. destruct (valid_bytes _ _ _); [|reflexivity]. split; [reflexivity|]. split; [|auto].
  cbn. unfold chg. destruct b; reflexivity.
Qed.
Lemma i_getptr sg o : ind (getptr E sg o).
Proof.
  intros s1 s2 S. pose proof S as (S1 & _). unfold getptr. cbv zeta. rewrite S1, chg_tab. destruct (_ <? 272); [|reflexivity]. destruct (_ && _ && _); (split; [reflexivity|exact S]).
Qed.
Lemma i_getseg c0 : ind (getseg c0).
Proof. intros s1 s2 S. pose proof S as (S1 & _). unfold getseg. rewrite S1, chg_sreg. destruct (sreg_of _ _); [split; [reflexivity|exact S]|reflexivity]. Qed.
Lemma i_chkseg c0 : ind (chkseg c0).
Proof. intros s1 s2 S. pose proof S as (S1 & _). unfold chkseg. rewrite S1, chg_sreg. destruct (sreg_of _ _); [split; [reflexivity|exact S]|reflexivity]. Qed.
Lemma chg_set c0 v a : sreg_set c0 v (chg a) = match sreg_set c0 v a with Some a' => Some (chg a') | None => None end.
Proof. unfold chg. destruct b; [|destruct (sreg_set c0 v a); reflexivity]. unfold sreg_set. destruct c0 as [|p|p]; try reflexivity. repeat (destruct p as [p|p|]; try reflexivity). Qed.
Lemma i_setseg c0 v : ind (setseg c0 v).
Proof.
  intros s1 s2 S. pose proof S as (S1 & S2 & S3 & S4). unfold setseg. rewrite S1, chg_set. destruct (sreg_set _ _ _); [|reflexivity]. split; [reflexivity|]. split; [reflexivity|]. auto.
Qed.
Lemma i_set_gpr p w v : ind (set_gpr p w v). Proof. apply i_upd_ar. reflexivity. Qed.
Lemma i_load w p : ind (load w p). Proof. destruct p; [apply i_getA; reflexivity|apply i_hload]. Qed.
Lemma i_store w p v : ind (store w p v). Proof. destruct p; [apply i_set_gpr|apply i_hstore]. Qed.
Lemma i_io_in w p : ind (io_in E w p).
Proof. intros s1 s2 (S1 & S2 & S3 & S4). assert (K : iolog (ar s2) = iolog (ar s1)) by (rewrite S1; unfold chg; destruct b; reflexivity). unfold io_in. rewrite K. split; [reflexivity|]. split; [|auto]. cbn. rewrite S1. unfold chg. destruct b; reflexivity. Qed.
Lemma i_io_out w p v : ind (io_out w p v).
Proof. intros s1 s2 (S1 & S2 & S3 & S4). assert (K : iolog (ar s2) = iolog (ar s1)) by (rewrite S1; unfold chg; destruct b; reflexivity). unfold io_out. rewrite K. split; [reflexivity|]. split; [|auto]. cbn. rewrite S1. unfold chg. destruct b; reflexivity. Qed.
Lemma sim_0 s1 s2 : sim s1 s2 <-> sim0 s1 s2 /\ dc s2 = dc s1. Proof. unfold sim, sim0. tauto. Qed.
Lemma i_hle n : ind (call_hle E n).
Proof.
  intros s1 s2 S. pose proof S as (S1 & S2 & _). unfold call_hle. cbv zeta. rewrite S1, chg_hle. destruct (_ =? 0); (split; [reflexivity|]); [exact S|].
  apply sim_0. split; [apply CB, sim_0, S|]. rewrite !CD. exact S2.
Qed.
Lemma hle_0 n s1 s2 : sim0 s1 s2 -> osim sim0 (call_hle E n s1) (call_hle E n s2).
Proof. intros S. pose proof S as (S1 & _). unfold call_hle. cbv zeta. rewrite S1, chg_hle. destruct (_ =? 0); (split; [reflexivity|]); [exact S|apply CB, S]. Qed.
Ltac ist :=
  lazymatch goal with
  | |- ind (bind _ _) => apply i_bind; [|intros ?]
  | |- ind (ret _) => apply i_ret
  | |- ind (err _) => apply i_err
  | |- ind (undef _) => apply i_undef
  | |- ind (getA _) => apply i_getA; reflexivity
  | |- ind (getD _) => apply i_getD
  | |- ind (upd_ar _) => apply i_upd_ar; reflexivity
  | |- ind (upd_dc _) => apply i_upd_dc
  | |- ind (hload _ _) => apply i_hload
  | |- ind (hstore _ _ _) => apply i_hstore
  | |- ind (getptr _ _ _) => apply i_getptr
  | |- ind (getseg _) => apply i_getseg
  | |- ind (chkseg _) => apply i_chkseg
  | |- ind (setseg _ _) => apply i_setseg
  | |- ind (load _ _) => apply i_load
  | |- ind (store _ _ _) => apply i_store
  | |- ind (io_in _ _ _) => apply i_io_in
  | |- ind (io_out _ _ _) => apply i_io_out
  | |- ind (call_hle _ _) => apply i_hle
  | |- ind (if ?b then _ else _) => destruct b
  | |- ind (let '(_, _) := ?e in _) => destruct e
  | |- ind (match ?e with _ => _ end) => destruct e
  | |- ind (let _ := _ in _) => cbv zeta
  | |- ind (set_gpr _ _ _) => apply i_set_gpr
  | |- ind (setW _ _) => apply i_set_gpr
  | |- ind (setL _ _) => apply i_set_gpr
  | |- ind (setH _ _) => apply i_set_gpr
  | |- ind (set_ip _) => apply i_upd_ar; reflexivity
  | |- ind (set_cs _) => apply i_upd_ar; reflexivity
  | |- ind (set_flags _) => apply i_upd_ar; reflexivity
  | |- ind (get_gpr _ _) => apply i_getA; reflexivity
  | |- ind (getW _) => apply i_getA; reflexivity
  | |- ind (getDw _) => apply i_getA; reflexivity
  | |- ind (getL _) => apply i_getA; reflexivity
  | |- ind (getH _) => apply i_getA; reflexivity
  | |- ind getflags => apply i_getA; reflexivity
  | |- ind next_ip => unfold next_ip
  | |- ind dont_change_ip => apply i_upd_dc
  | |- ind opw => unfold opw
  | |- ind (upd_flags _) => unfold upd_flags
  | |- ind (rd _ _ _ _) => unfold rd
  | |- ind (wr _ _ _ _ _) => unfold wr
  | |- ind (fetch _ _) => unfold fetch
  | |- ind (fetch8 _) => unfold fetch8, fetch
  | |- ind (fetch16 _) => unfold fetch16, fetch
  | |- ind (fetch32 _) => unfold fetch32, fetch
  | |- ind (fetch8s _) => unfold fetch8s
  | |- ind (get_modrm _) => unfold get_modrm
  | |- ind (push _ _) => unfold push
  | |- ind (pop _) => unfold pop
  | |- ind (pop_to _ _) => unfold pop_to
  | |- ind (ea_segment _ _) => unfold ea_segment
  | |- ind (sib_index _) => unfold sib_index
  | |- ind data_seg => unfold data_seg
  | |- ind (moffs _) => unfold moffs
  | |- ind (peek8 _) => unfold peek8
  | |- ind (dofunc _ _ _ _) => unfold dofunc
  | |- ind (dofunc32 _ _ _ _) => unfold dofunc32
  | |- ind (jump_if _ _) => unfold jump_if
  | |- ind (push_imm _ _) => unfold push_imm
  | |- ind (alu_vals _ _ _ _ _) => unfold alu_vals
  | |- ind (alu2 _ _ _ _) => unfold alu2
  | |- ind (alu2i _ _ _ _) => unfold alu2i
  | |- ind (alu1 _ _ _) => unfold alu1
  | |- ind (copy _ _ _) => unfold copy
  | |- ind (xchg _ _ _) => unfold xchg
  | |- ind (do_shift _ _ _ _) => unfold do_shift
  | |- ind (do_dbl _ _ _ _ _) => unfold do_dbl
  | |- ind (imul2 _ _ _) => unfold imul2
  | |- ind (mul_body _ _) => unfold mul_body
  | |- ind (imul_body _ _) => unfold imul_body
  | |- ind (div_body _ _) => unfold div_body
  | |- ind (idiv_body _ _) => unfold idiv_body
  | |- ind (misc_select _ _ _ _) => unfold misc_select
  | |- ind (call_interrupt _ _) => unfold call_interrupt
  | |- ind (loop_with _ _) => unfold loop_with
  end.
Ltac iw := repeat ist.
Lemma i_mmm m : ind (get_mmm E m). Proof. unfold get_mmm. iw. Qed.
Lemma i_modm m : ind (decode_modm E m). Proof. unfold decode_modm. repeat (first [apply i_mmm|ist]). Qed.
Lemma i_modmx m : ind (decode_modmx E m). Proof. unfold decode_modmx. repeat (first [apply i_mmm|ist]). Qed.
Lemma i_parse : ind (parse_modrm E). Proof. unfold parse_modrm. repeat (first [apply i_modm|ist]). Qed.
Lemma i_parsex : ind (parse_modrmx E). Proof. unfold parse_modrmx. repeat (first [apply i_modmx|ist]). Qed.
Lemma i_modrm : ind (get_modrm E). Proof. iw. Qed.
Lemma i_nocheck : ind (get_modrm_nocheck E).
Proof.
  intros s1 s2 S. pose proof (i_modrm s1 s2 S) as H. unfold get_modrm_nocheck. destruct (get_modrm E s1), (get_modrm E s2); try contradiction; auto. reflexivity.
Qed.
Lemma i_farptr : ind (parse_farptr E). Proof. unfold parse_farptr. repeat (first [apply i_mmm|ist]). Qed.
Lemma i_enter_loop n : ind (enter_loop E n).
Proof. induction n as [|n IH]; cbn [enter_loop]; [apply i_ret|]. repeat (first [exact IH|ist]). Qed.
Lemma i_str_body o w a p q d : ind (str_body E o w a p q d). Proof. unfold str_body. destruct o; iw. Qed.
Lemma i_str_loop n : forall o w m a p q d, ind (str_loop E n o w m a p q d).
Proof.
  induction n as [|n IH]; intros; cbn [str_loop]; [apply i_fuel|].
  repeat (lazymatch goal with |- ind (str_body _ _ _ _ _ _ _) => apply i_str_body | |- ind (str_loop _ _ _ _ _ _ _ _ _) => apply IH | _ => ist end).
Qed.
Ltac ist1 :=
  lazymatch goal with
  | |- ind (get_mmm _ _) => apply i_mmm
  | |- ind (decode_modm _ _) => apply i_modm
  | |- ind (decode_modmx _ _) => apply i_modmx
  | |- ind (parse_modrm _) => apply i_parse
  | |- ind (parse_modrmx _) => apply i_parsex
  | |- ind (get_modrm_nocheck _) => apply i_nocheck
  | |- ind (parse_farptr _) => apply i_farptr
  | |- ind (enter_loop _ _) => apply i_enter_loop
  | |- ind (str_loop _ _ _ _ _ _ _ _ _) => apply i_str_loop
  | _ => ist
  end.
Lemma i_exec1 o p : (o = OPopF -> b = false) -> ind (exec1 E o p).
Proof.
  intros Hp. assert (Dec : o = OPopF \/ o <> OPopF) by (destruct o; auto; right; discriminate). destruct Dec as [->|Ho].
  - specialize (Hp eq_refl). cbn [exec1]. unfold x_popf. apply i_bind; [ist|intros []]; [ist|]. apply i_bind; [iw|intros t]. apply i_bind.
    { intros s1 s2 S. split; [|exact S]. destruct S as [-> _]. unfold chg. rewrite Hp. reflexivity. }
    intros k. iw.
  - destruct o; try congruence; cbn [exec1]; try apply i_err;
    try (match goal with |- ind ?h => let k := match h with ?f _ _ _ => f | ?f _ _ => f | ?f _ => f | _ => h end in
       let k := match k with ?f _ => f | _ => k end in unfold k end); try (solve [repeat ist1]).
Qed.
Lemma i_op_param e : ind (op_param E e). Proof. unfold op_param. repeat ist1. Qed.
Definition popf_tab (x : Z) : bool := match ca_op x with Some e => match e_op e with OPopF => x =? 0x9D | _ => true end | None => true end.
Lemma popf_op x e : 0 <= x < 256 -> ca_op x = Some e -> e_op e = OPopF -> x = 0x9D.
Proof. intros Hx He Ho. pose proof (idx_ok popf_tab ltac:(vm_compute; reflexivity) x Hx) as T. unfold popf_tab in T. rewrite He, Ho in T. lia. Qed.
Lemma popf_op0F x e : ca_op0F x = Some e -> e_op e <> OPopF.
Proof.
  intros He Ho. unfold ca_op0F in He.
  pose proof (PTop.ca_table (fun e => match e_op e with OPopF => false | _ => true end) caOperations0F _ e ltac:(vm_compute; reflexivity) He) as T. cbn beta in T. rewrite Ho in T. discriminate.
Qed.
Lemma i_exec o p : (o = OPopF -> b = false) -> ind (exec E o p).
Proof.
  intros H. assert (Dec : o = OExt0F \/ o <> OExt0F) by (destruct o; auto; right; discriminate). destruct Dec as [->|Ho].
  - unfold exec. apply i_bind; [iw|intros x]. destruct (ca_op0F x) as [e|] eqn:He; [|apply i_err]. apply i_exec1. intros K. destruct (popf_op0F _ _ He K).
  - destruct o; try congruence; apply i_exec1; assumption.
Qed.
(** The opcode byte about to be fetched is not POPF, if the CPU type differs. *)
Definition not_popf (s : st) : Prop := b = true -> exists base, flat E base (ar s) /\ wf_regs (ar s) /\ ipbyte (ar s) (d_ipoff (dc s)) <> 0x9D.
Lemma i_once s1 s2 : not_popf s1 -> sim s1 s2 -> osim sim (op_once E s1) (op_once E s2).
Proof.
  intros N S. unfold op_once. assert (F8 : ind (fetch8 E)) by iw. pose proof (F8 s1 s2 S) as H. unfold bind at 1 3. destruct (fetch8 E s1) as [x t1|e t1|r|] eqn:F1, (fetch8 E s2) as [y t2|e' t2|r'|]; try contradiction; auto.
  destruct H as [<- H]. destruct (x =? 241); [split; [reflexivity|exact H]|]. destruct (ca_op x) as [e|] eqn:He; [|split; [reflexivity|exact H]].
  refine (i_bind (op_param E e) (fun p => exec E (e_op e) p) (i_op_param e) _ t1 t2 H). intros p. apply i_exec. intros Ho. assert (Hbb : b = true \/ b = false) by (destruct b; auto). destruct Hbb as [Hb|Hb]; [exfalso|exact Hb].
  destruct (N Hb) as (base & F & W & Nb). destruct s1 as [a d g n l]. cbn [ar dc] in *. rewrite (fetch8_any E base) in F1 by assumption. injection F1 as <- _.
  apply Nb. exact (popf_op _ _ (ipbyte_range E base _ _ F W) He Ho).
Qed.
Lemma i_loop : forall n s1 s2, (b = true -> quiet_host E /\ byte_memory s1 /\ exists base, flat E base (ar s1) /\ wf_regs (ar s1) /\
    forall k, 0 <= k -> (forall i, 0 <= i < k -> prefix_byte (ipbyte (ar s1) (d_ipoff (dc s1) + i))) -> ipbyte (ar s1) (d_ipoff (dc s1) + k) <> 0x9D) -> sim s1 s2 ->
  osim sim (op_loop E n s1) (op_loop E n s2).
Proof.
  induction n as [|n IH]; intros s1 s2 N S; cbn [op_loop]; [exact I|].
  assert (H : osim sim (op_once E s1) (op_once E s2)).
  { apply i_once; [|exact S]. intros Hb. destruct (N Hb) as (_ & _ & base & F & W & K). exists base. split; [exact F|]. split; [exact W|]. specialize (K 0). rewrite Z.add_0_r in K. apply K; intros; lia. }
  destruct (op_once E s1) as [u1 t1|c1 t1|r1|] eqn:E1, (op_once E s2) as [u2 t2|c2 t2|r2|]; try contradiction; auto. destruct H as [<- H].
  destruct (Z.eqb_spec c1 E_CONTINUE) as [->|Nc]; [|split; auto]. apply IH; [|exact H]. intros Hb. destruct (N Hb) as (Q & By & base & F & W & K).
  destruct (once_codes E Q base s1 E_CONTINUE t1 F W By E1) as [_ [Hc|(_ & Hp & Ha & Hd & _)]].
  { exfalso. unfold cause, E_BREAK, E_HALT, E_DIVERR, E_BADMEM, E_UNDEF, E_BUG, E_CONTINUE in *. lia. }
  split; [exact Q|]. split; [intros x y; rewrite Ha; apply By|]. exists base. rewrite Ha, Hd. split; [exact F|]. split; [exact W|]. intros k Hk Hpre. replace (d_ipoff (dc s1) + 1 + k) with (d_ipoff (dc s1) + (k + 1)) by lia.
  apply K; [lia|]. intros i Hi. destruct (Z.eq_dec i 0) as [->|Ni]; [rewrite Z.add_0_r; exact Hp|]. replace (d_ipoff (dc s1) + i) with (d_ipoff (dc s1) + 1 + (i - 1)) by lia. apply Hpre. lia.
Qed.
Lemma i_lastnull v : ind (modify (set_lastnull v)).
Proof. intros s1 s2 (S1 & S2 & S3 & S4). split; [reflexivity|]. split; [exact S1|]. split; [exact S2|]. split; [exact S3|reflexivity]. Qed.
Lemma i_gets_null : ln = false -> ind (gets lastnull). Proof. intros L s1 s2 S. pose proof S as (S1 & S2 & S3 & S4). split; [symmetry; exact (S4 L)|exact S]. Qed.
Lemma i_gets_dbg : ind (gets dbg). Proof. intros s1 s2 S. pose proof S as (S1 & S2 & S3 & S4). split; [symmetry; exact S3|exact S]. Qed.
Lemma i_null cs ip : ln = false -> ind (null_hack E cs ip).
Proof. intros L. unfold null_hack. repeat (lazymatch goal with |- ind (modify (set_lastnull _)) => apply i_lastnull | |- ind (gets lastnull) => apply (i_gets_null L) | _ => ist end). Qed.
Lemma i_dump n : forall cs i, ind (dump_bytes E n cs i). Proof. induction n as [|n IH]; intros; cbn [dump_bytes]; [apply i_ret|]. repeat (first [apply IH|ist]). Qed.
Lemma i_trace cs ip : ind (trace_dump E cs ip).
Proof. unfold trace_dump. repeat (lazymatch goal with |- ind (gets dbg) => apply i_gets_dbg | |- ind (dump_bytes _ _ _ _) => apply i_dump | _ => ist end). Qed.
Lemma i_advance : ind advance_ip. Proof. unfold advance_ip. iw. Qed.
Lemma osim_weak {X} (o1 o2 : out X) : osim sim o1 o2 -> osim sim0 o1 o2.
Proof. destruct o1, o2; cbn; auto; intros [H1 H2]; (split; [exact H1|apply sim_0, H2]). Qed.
Definition nopopf (s1 : st) : Prop := b = true -> quiet_host E /\ byte_memory s1 /\ exists base, flat E base (ar s1) /\ wf_regs (ar s1) /\ ~ opcode_at (ar s1) (fun x => x = 0x9D).
(** The instruction up to the 00 00 check. *)
Definition do_pre : M unit := upd_dc (fun _ => dec0) ;;; n <- gets icount ;; if n =? 2147483647 then undef UbCount else modify (set_icount (n + 1)) ;;; op_loop E 6 ;;; advance_ip.
Lemma do_pre_eq s : do_opcode E s = bind do_pre (fun _ => null_hack E (r_cs (ar s)) (r_ip (ar s)) ;;; trace_dump E (r_cs (ar s)) (r_ip (ar s))) s.
Proof.
  unfold do_opcode, do_pre, bind, getA, gets, upd_dc, modify. destruct (_ =? 2147483647); [reflexivity|]. match goal with |- context [op_loop E 6 ?x] => destruct (op_loop E 6 x) end; try reflexivity.
Qed.
Lemma i_pre s1 s2 : nopopf s1 -> icount s1 <> 2147483647 -> icount s2 <> 2147483647 -> sim0 s1 s2 -> osim sim (do_pre s1) (do_pre s2).
Proof.
  intros N N1 N2 (S1 & S2 & S3). unfold do_pre, bind, getA, gets, upd_dc, modify. cbn [set_dc icount]. replace (icount s1 =? 2147483647) with false by lia. replace (icount s2 =? 2147483647) with false by lia.
  match goal with |- osim sim (match op_loop E 6 ?x with _ => _ end) (match op_loop E 6 ?y with _ => _ end) => set (t1 := x); set (t2 := y) end.
  assert (H : osim sim (op_loop E 6 t1) (op_loop E 6 t2)).
  { apply i_loop.
    - intros Hb. destruct (N Hb) as (Q & By & base & F & W & K). split; [exact Q|]. split; [exact By|]. exists base. split; [exact F|]. split; [exact W|]. intros k Hk Hp He. apply K. exists k. auto.
    - split; [exact S1|]. split; [reflexivity|]. auto. }
  destruct (op_loop E 6 t1) as [u1 v1|c1 v1|r1|], (op_loop E 6 t2) as [u2 v2|c2 v2|r2|]; try contradiction; auto. destruct H as [_ H].
  exact (i_advance v1 v2 H).
Qed.
Lemma i_do s1 s2 : ln = false -> nopopf s1 -> icount s1 <> 2147483647 -> icount s2 <> 2147483647 -> sim0 s1 s2 -> osim sim (do_opcode E s1) (do_opcode E s2).
Proof.
  intros L N N1 N2 S. pose proof (i_pre s1 s2 N N1 N2 S) as H. destruct S as (S1 & S2 & S3).
  assert (A : r_ip (ar s2) = r_ip (ar s1) /\ r_cs (ar s2) = r_cs (ar s1)) by (rewrite S1; unfold chg; destruct b; auto). destruct A as [A1 A2].
  rewrite !do_pre_eq, A1, A2. unfold bind at 1 3. destruct (do_pre s1) as [u1 v1|c1 v1|r1|], (do_pre s2) as [u2 v2|c2 v2|r2|]; try contradiction; auto. destruct H as [_ H].
  refine (i_bind (null_hack E (r_cs (ar s1)) (r_ip (ar s1))) (fun _ => trace_dump E (r_cs (ar s1)) (r_ip (ar s1))) (i_null _ _ L) _ v1 v2 H). intros _. apply i_trace.
Qed.
(** IRET and the divide fault do not read the decoder's scratch either. *)
Definition ind0 {X} (m : M X) : Prop := forall s1 s2, sim0 s1 s2 -> osim sim0 (m s1) (m s2).
Definition redec (d : dec) (s : st) : st := mkSt (ar s) d (dbg s) (icount s) (lastnull s).
Lemma i0_bind {X Y} (m : M X) (f : X -> M Y) : ind0 m -> (forall x, ind0 (f x)) -> ind0 (bind m f).
Proof.
  intros H1 H2 s1 s2 S. unfold bind. specialize (H1 s1 s2 S). destruct (m s1) as [x t1|e t1|r|], (m s2) as [y t2|e' t2|r'|]; try contradiction; auto.
  destruct H1 as [<- H1]. apply (H2 x _ _ H1).
Qed.
Lemma i0_ret {X} (x : X) : ind0 (ret x). Proof. intros s1 s2 S. split; [reflexivity|exact S]. Qed.
Lemma i0_err {X} e : ind0 (@err X e). Proof. intros s1 s2 S. split; [reflexivity|exact S]. Qed.
Lemma i0_getA {X} (f : arch -> X) : (forall v a, f (a_cpu v a) = f a) -> ind0 (getA f).
Proof. intros H s1 s2 S. split; [|exact S]. destruct S as [-> _]. unfold chg. destruct b; [symmetry; apply H|reflexivity]. Qed.
Lemma i0_upd_ar f : (forall v a, f (a_cpu v a) = a_cpu v (f a)) -> ind0 (upd_ar f).
Proof. intros H s1 s2 (S1 & S3 & S4). split; [reflexivity|]. split; [|split; [exact S3|auto]]. cbn. rewrite S1. unfold chg. destruct b; [apply H|reflexivity]. Qed.
Lemma i0_upd_dc f : ind0 (upd_dc f). Proof. intros s1 s2 (S1 & S3 & S4). split; [reflexivity|]. split; [exact S1|]. auto. Qed.
Lemma i0_hload w p : ind0 (hload w p).
Proof. intros s1 s2 S. pose proof S as (S1 & _). unfold hload. rewrite S1, chg_mem. destruct (load_bytes _ _ _); [split; [reflexivity|exact S]|reflexivity]. Qed.
Lemma i0_hstore w p v : ind0 (hstore w p v).
Proof.
  intros s1 s2 S. pose proof S as (S1 & S3 & S4). unfold hstore. rewrite S1, chg_mem. destruct (valid_bytes _ _ _); [|reflexivity]. split; [reflexivity|]. split; [|auto].
  cbn. unfold chg. destruct b; reflexivity.
Qed.
Lemma i0_getptr sg o : ind0 (getptr E sg o).
Proof.
  intros s1 s2 S. pose proof S as (S1 & _). unfold getptr. cbv zeta. rewrite S1, chg_tab. destruct (_ <? 272); [|reflexivity]. destruct (_ && _ && _); (split; [reflexivity|exact S]).
Qed.
Ltac is0 :=
  lazymatch goal with
  | |- ind0 (bind _ _) => apply i0_bind; [|intros ?]
  | |- ind0 (ret _) => apply i0_ret
  | |- ind0 (err _) => apply i0_err
  | |- ind0 (getA _) => apply i0_getA; reflexivity
  | |- ind0 (upd_ar _) => apply i0_upd_ar; reflexivity
  | |- ind0 (upd_dc _) => apply i0_upd_dc
  | |- ind0 (hload _ _) => apply i0_hload
  | |- ind0 (hstore _ _ _) => apply i0_hstore
  | |- ind0 (getptr _ _ _) => apply i0_getptr
  | |- ind0 (if ?b then _ else _) => destruct b
  | |- ind0 (let _ := _ in _) => cbv zeta
  | |- ind0 (setW _ _) => apply i0_upd_ar; reflexivity
  | |- ind0 (set_gpr _ _ _) => apply i0_upd_ar; reflexivity
  | |- ind0 (set_ip _) => apply i0_upd_ar; reflexivity
  | |- ind0 (set_cs _) => apply i0_upd_ar; reflexivity
  | |- ind0 (set_flags _) => apply i0_upd_ar; reflexivity
  | |- ind0 (get_gpr _ _) => apply i0_getA; reflexivity
  | |- ind0 (getW _) => apply i0_getA; reflexivity
  | |- ind0 getflags => apply i0_getA; reflexivity
  | |- ind0 dont_change_ip => apply i0_upd_dc
  | |- ind0 (rd _ _ _ _) => unfold rd
  | |- ind0 (wr _ _ _ _ _) => unfold wr
  | |- ind0 (push _ _) => unfold push
  | |- ind0 (pop _) => unfold pop
  end.
Lemma i0_iret : ind0 (x_iret E). Proof. unfold x_iret. repeat is0. Qed.
Lemma i0_callint n : ind0 (int_callint E n). Proof. unfold int_callint. repeat is0. Qed.
Theorem run_indep s1 s2 : ln = false -> nopopf s1 -> icount s1 <> 2147483647 -> icount s2 <> 2147483647 -> sim0 s1 s2 -> osim sim0 (run_one E s1) (run_one E s2).
Proof.
  intros L N N1 N2 S. pose proof S as (S1 & S2 & S3). unfold run_one. assert (A : r_ip (ar s2) = r_ip (ar s1) /\ r_cs (ar s2) = r_cs (ar s1)) by (rewrite S1; unfold chg; destruct b; auto). destruct A as [-> ->].
  cbv zeta. destruct (_ && _); [split; [reflexivity|exact S]|]. destruct (_ && _).
  - pose proof (hle_0 (r_ip (ar s1)) s1 s2 S) as H. destruct (call_hle E (r_ip (ar s1)) s1) as [u1 t1|c1 t1|r1|], (call_hle E (r_ip (ar s1)) s2) as [u2 t2|c2 t2|r2|]; try contradiction; auto.
    destruct H as [_ H]. pose proof (i0_iret t1 t2 H) as K. destruct (x_iret E t1), (x_iret E t2); try contradiction; auto; destruct K as [_ K]; (split; [reflexivity|exact K]).
  - pose proof (i_do s1 s2 L N N1 N2 S) as H. destruct (do_opcode E s1) as [u1 t1|c1 t1|r1|], (do_opcode E s2) as [u2 t2|c2 t2|r2|]; try contradiction; auto.
    + destruct H as [_ H]. split; [apply eq_trans with tt; destruct u1, u2; reflexivity|apply sim_0, H].
    + destruct H as [<- H]. destruct (c1 =? E_DIVERR); [apply i0_callint, sim_0, H|split; [reflexivity|apply sim_0, H]].
Qed.
(** The 00 00 check is the only reader of the flag. *)
Definition nv cs ip : M bool := o <- getD d_ipoff ;; if o =? 2 then b1 <- rd E 8 cs ip ;; b2 <- rd E 8 cs (ip + 1) ;; ret ((b1 =? 0) && (b2 =? 0)) else ret false.
Lemma null_nv cs ip s : null_hack E cs ip s = match nv cs ip s with
  | Ok true s' => if lastnull s' then Err E_BREAK s' else Ok tt (set_lastnull true s') | Ok false s' => Ok tt (set_lastnull false s') | Err c s' => Err c s' | UB r => UB r | Fuel => Fuel end.
Proof.
  unfold null_hack, nv, bind, getD, gets, ret, modify. destruct (_ =? 2); [|reflexivity]. destruct (rd E 8 cs ip s) as [b1 t1|e t1|r|]; try reflexivity.
  destruct (rd E 8 cs (ip + 1) t1) as [b2 t2|e t2|r|]; try reflexivity. destruct (_ && _); [destruct (lastnull t2); reflexivity|reflexivity].
Qed.
Lemma i_nv cs ip : ind (nv cs ip). Proof. unfold nv. iw. Qed.
Lemma nv_keep cs ip s z s' : nv cs ip s = Ok z s' -> s' = s.
Proof.
  unfold nv, bind, getD, gets, ret. destruct (_ =? 2); [|congruence]. destruct (rd E 8 cs ip s) as [b1 t1|e t1|r|] eqn:R1; try discriminate.
  destruct (rd E 8 cs (ip + 1) t1) as [b2 t2|e t2|r|] eqn:R2; try discriminate. pose proof (PKeep3.rd_st _ _ _ _ _ _ _ R1) as ->. pose proof (PKeep3.rd_st _ _ _ _ _ _ _ R2) as ->. congruence.
Qed.
Lemma sim_ln v s1 s2 : sim s1 s2 -> sim (set_lastnull v s1) (set_lastnull v s2).
Proof. intros (S1 & S2 & S3 & S4). split; [exact S1|]. split; [exact S2|]. split; [exact S3|reflexivity]. Qed.
Definition null_diff (o1 o2 : out unit) (R : st -> st -> Prop) : Prop :=
  exists t1 t2, o1 = Ok tt t1 /\ o2 = Err E_BREAK t2 /\ R t1 t2.
Lemma n_null cs ip s1 s2 : lastnull s1 = false -> sim s1 s2 -> osim sim (null_hack E cs ip s1) (null_hack E cs ip s2) \/
  null_diff (null_hack E cs ip s1) (null_hack E cs ip s2) sim.
Proof.
  intros L S. rewrite !null_nv. pose proof (i_nv cs ip s1 s2 S) as H. destruct (nv cs ip s1) as [z t1|e t1|r|] eqn:V1, (nv cs ip s2) as [z2 t2|e2 t2|r2|]; try contradiction; auto.
  destruct H as [<- H]. pose proof (nv_keep _ _ _ _ _ V1) as ->. destruct z; [|left; split; [reflexivity|apply sim_ln, H]].
  rewrite L. destruct (lastnull t2) eqn:L2; [|left; split; [reflexivity|apply sim_ln, H]].
  right. exists (set_lastnull true s1), t2. split; [reflexivity|]. split; [reflexivity|]. destruct H as (S1 & S2 & S3 & S4). split; [exact S1|]. split; [exact S2|]. split; [exact S3|]. intros _. exact L2.
Qed.
Lemma trace_off cs ip s : dbg s < 1 -> trace_dump E cs ip s = Ok tt s.
Proof. intros H. unfold trace_dump, bind, gets. replace (1 <=? dbg s) with false by lia. reflexivity. Qed.
(** One instruction, the flag not yet set in the first state. *)
Theorem run_null s1 s2 : (forall u s', op_loop E 6 (ordinary_start s1) = Ok u s' -> lastnull s' = lastnull s1 /\ dbg s' = dbg s1) -> dbg s1 < 1 -> lastnull s1 = false ->
  nopopf s1 -> icount s1 <> 2147483647 -> icount s2 <> 2147483647 -> sim0 s1 s2 -> osim sim0 (run_one E s1) (run_one E s2) \/ null_diff (run_one E s1) (run_one E s2) sim0.
Proof.
  intros HL G L N N1 N2 S. pose proof S as (S1 & S2 & S3). unfold run_one. assert (A : r_ip (ar s2) = r_ip (ar s1) /\ r_cs (ar s2) = r_cs (ar s1)) by (rewrite S1; unfold chg; destruct b; auto). destruct A as [A1 A2]. rewrite A1, A2.
  cbv zeta. destruct (_ && _); [left; split; [reflexivity|exact S]|]. destruct (_ && _).
  - left. pose proof (hle_0 (r_ip (ar s1)) s1 s2 S) as H. destruct (call_hle E (r_ip (ar s1)) s1) as [u1 t1|c1 t1|r1|], (call_hle E (r_ip (ar s1)) s2) as [u2 t2|c2 t2|r2|]; try contradiction; auto.
    destruct H as [_ H]. pose proof (i0_iret t1 t2 H) as K. destruct (x_iret E t1), (x_iret E t2); try contradiction; auto; destruct K as [_ K]; (split; [reflexivity|exact K]).
  - rewrite !do_pre_eq, A1, A2. unfold bind at 1 3 5 7. pose proof (i_pre s1 s2 N N1 N2 S) as H.
    assert (HP : forall u t, do_pre s1 = Ok u t -> lastnull t = false /\ dbg t < 1).
    { intros u t. unfold do_pre, bind, gets, upd_dc, modify. destruct (_ =? 2147483647); [discriminate|]. change (set_icount (icount (set_dc dec0 s1) + 1) (set_dc dec0 s1)) with (ordinary_start s1). destruct (op_loop E 6 (ordinary_start s1)) as [v t0|? ?|?|] eqn:El; try discriminate. destruct (HL _ _ eq_refl) as [K1 K2].
      unfold advance_ip, bind, getD, getA, gets. destruct (d_noip _); intros [= <- <-]; cbn; rewrite K1, K2; auto. }
    destruct (do_pre s1) as [u1 v1|c1 v1|r1|], (do_pre s2) as [u2 v2|c2 v2|r2|]; try contradiction; auto.
    + destruct H as [_ H]. destruct (HP u1 v1 eq_refl) as [Lv Gv]. unfold bind. pose proof (n_null (r_cs (ar s1)) (r_ip (ar s1)) v1 v2 Lv H) as K.
      assert (DB : forall v u t, null_hack E (r_cs (ar s1)) (r_ip (ar s1)) v = Ok u t -> dbg t = dbg v).
      { intros v u t. rewrite null_nv. destruct (nv _ _ v) as [z t0|? ?|?|] eqn:V; try discriminate. pose proof (nv_keep _ _ _ _ _ V) as ->. destruct z; [destruct (lastnull v); [discriminate|]|]; intros [= <- <-]; reflexivity. }
      assert (DV : dbg v2 = dbg v1) by apply H.
      destruct K as [K|(t1 & t2 & K1 & K2 & K3)].
      * left. destruct (null_hack E _ _ v1) as [x1 w1|c1 w1|r1|] eqn:M1, (null_hack E _ _ v2) as [x2 w2|c2 w2|r2|] eqn:M2; try contradiction; auto.
        -- rewrite !trace_off by (erewrite DB by eassumption; lia). destruct K as [_ K]. split; [reflexivity|apply sim_0, K].
        -- destruct K as [<- K]. destruct (c1 =? E_DIVERR); [apply i0_callint, sim_0, K|split; [reflexivity|apply sim_0, K]].
      * right. rewrite K1, K2. rewrite trace_off by (erewrite DB by eassumption; lia). exists t1, t2. split; [reflexivity|]. split; [reflexivity|apply sim_0, K3].
    + left. destruct H as [<- H]. destruct (c1 =? E_DIVERR); [apply i0_callint, sim_0, H|split; [reflexivity|apply sim_0, H]].
Qed.
End Indep.
(** Whole calls, for the same CPU type. *)
Section Calls.
Context (E : env) (f : Z -> Z -> arch -> arch) (C : callbacks E f) (P : polite E).
Lemma same_sim0 s1 s2 : same_machine s1 s2 <-> sim0 false false 0 s1 s2. Proof. unfold same_machine, sim0, chg. intuition. Qed.
Lemma cb_sim ln : forall h n s1 s2, sim0 false ln 0 s1 s2 -> sim0 false ln 0 (callback E h n s1) (callback E h n s2).
Proof. intros h n s1 s2 (S1 & S2 & S3). unfold chg in S1. rewrite !C. split; [cbn; rewrite S1; reflexivity|]. cbn. auto. Qed.
Lemma cb_dc h n s : dc (callback E h n s) = dc s. Proof. rewrite C. reflexivity. Qed.
Lemma agree_weak {X} (R R' : st -> st -> Prop) (o1 o2 : out X) : (forall a b, R a b -> R' a b) -> agree R o1 o2 -> agree R' o1 o2.
Proof. intros H. destruct o1, o2; cbn; auto; intros [H1 H2]; auto. Qed.
Theorem run_same s1 s2 : same_machine s1 s2 -> icount s1 <> 2147483647 -> icount s2 <> 2147483647 -> agree same_machine (run_one E s1) (run_one E s2).
Proof.
  intros S N1 N2. apply (agree_weak (sim0 false false 0)); [intros; apply same_sim0; assumption|].
  apply run_indep; try assumption; [apply cb_sim|apply cb_dc|reflexivity|discriminate|apply same_sim0; assumption].
Qed.
Theorem call_same fuel : forall s1 s2, same_machine s1 s2 -> wf_state s1 -> wf_state s2 -> room (Z.of_nat fuel) s1 -> room (Z.of_nat fuel) s2 -> agree same_machine (rme_call E fuel s1) (rme_call E fuel s2).
Proof.
  induction fuel as [|n IH]; intros s1 s2 S W1 W2 R1 R2; cbn [rme_call]; [exact I|]. unfold room in *.
  pose proof (run_same s1 s2 S ltac:(lia) ltac:(lia)) as H. pose proof (run_one_general E P s1 W1) as G1. pose proof (run_one_general E P s2 W2) as G2.
  destruct (run_one E s1) as [u1 t1|c1 t1|r1|], (run_one E s2) as [u2 t2|c2 t2|r2|]; try contradiction; auto.
  - destruct H as [_ H]. apply IH; [exact H|apply (ge_wf _ _ (proj1 G1))|apply (ge_wf _ _ (proj1 G2))| |]; lia.
  - destruct H as [<- H]. destruct (c1 =? E_FCNRET); (split; [reflexivity|exact H]).
Qed.
Lemma loop_same s u s' : wf_state s -> op_loop E 6 (ordinary_start s) = Ok u s' -> lastnull s' = lastnull s /\ dbg s' = dbg s.
Proof.
  intros Hw H. assert (W1 : wf_state (ordinary_start s)). { destruct Hw. constructor; cbn; auto; lia. }
  pose proof (loop_keeps E gp (ordinary_start s) (gp_mem E _) (gp_perm E _ P) 6 (ordinary_start s) (wf_inv _ W1) ltac:(pose proof (unused_range (dc (ordinary_start s))); lia)) as HL.
  rewrite H in HL. destruct HL as [HL _]. split; [apply (iv_null _ _ _ HL)|apply (iv_dbg _ _ _ HL)].
Qed.
Theorem run_flag s1 s2 : wf_state s1 -> same_visible s1 s2 -> dbg s1 < 1 -> lastnull s1 = false -> icount s1 <> 2147483647 -> icount s2 <> 2147483647 ->
  agree same_visible (run_one E s1) (run_one E s2) \/ exists t1 t2, run_one E s1 = Ok tt t1 /\ run_one E s2 = Err E_BREAK t2 /\ same_visible t1 t2.
Proof.
  intros W S G L N1 N2. assert (K : forall a b, sim0 false true 0 a b <-> same_visible a b). { intros. unfold sim0, same_visible, chg. intuition discriminate. }
  destruct (run_null E false true 0 (cb_sim true) cb_dc s1 s2) as [H|(t1 & t2 & H1 & H2 & H3)]; try assumption.
  - intros u s' H. apply (loop_same s1 u s' W H).
  - discriminate.
  - apply K, S.
  - left. apply (agree_weak (sim0 false true 0)); [intros; apply K; assumption|exact H].
  - right. exists t1, t2. split; [exact H1|]. split; [exact H2|apply K, H3].
Qed.
Theorem call_int_same fuel n s1 s2 : same_machine s1 s2 -> wf_state s1 -> wf_state s2 -> room (Z.of_nat fuel) s1 -> room (Z.of_nat fuel) s2 -> agree same_machine (call_int E fuel n s1) (call_int E fuel n s2).
Proof.
  intros S W1 W2 R1 R2. unfold call_int. unfold bind at 1 2 4 5. unfold set_cs, set_ip, upd_ar, modify.
  set (t1 := set_ar _ (set_ar _ s1)). set (t2 := set_ar _ (set_ar _ s2)).
  assert (T1 : upto s1 t1).
  { apply upto_inv. pose proof (wf_inv s1 W1) as []. constructor; cbn; auto; try discriminate. destruct iv_regs. constructor; cbn; auto; apply wrap_range; lia. }
  assert (T2 : upto s2 t2).
  { apply upto_inv. pose proof (wf_inv s2 W2) as []. constructor; cbn; auto; try discriminate. destruct iv_regs. constructor; cbn; auto; apply wrap_range; lia. }
  assert (S' : sim0 false false 0 t1 t2). { destruct S as (S1 & S2 & S3). split; [|auto]. unfold chg, t1, t2. cbn. rewrite S1. reflexivity. }
  pose proof (i0_callint E false false 0 n t1 t2 S') as H. unfold bind. pose proof (int_callint_upto E n s1 t1 T1) as U1. pose proof (int_callint_upto E n s2 t2 T2) as U2.
  assert (HU : forall s s', wf_state s -> upto s s' -> wf_state s' /\ icount s' = icount s).
  { intros s s' Hw [l Hl]. split; [|apply (iv_cnt _ _ _ Hl)]. apply inv_effect in Hl. apply (ge_wf _ _ Hl). }
  destruct (int_callint E n t1) as [u1 v1|c1 v1|r1|], (int_callint E n t2) as [u2 v2|c2 v2|r2|]; try contradiction; auto.
  - destruct H as [_ H]. destruct (HU _ _ W1 U1), (HU _ _ W2 U2). apply call_same; auto; [apply same_sim0, H| |]; unfold room in *; lia.
  - destruct H as [<- H]. split; [reflexivity|apply same_sim0, H].
Qed.
End Calls.
