(** Footprints: which parts of the architectural state each instruction can change.  [f] is any function of the architectural
    state; the effects an opcode can have are listed in [effs], and [f] is unchanged when it ignores all of them. *)
From Verif Require Import Base Cpu Alu Ops Machine Spec SpecRun SpecTop SpecCodes PBase PMem PRun PFrame PKeep2 PKeep3 PTop PTop3 PCodes SpecFoot.

Inductive eff := EG | ER (r : Z) | EF | EM | EV (c : Z) | EI | EIO | ECB.
Definition dst_rm : list eff := [EG; EM].
Definition effs (o : opid) (p : Z) : list eff :=
  match o with
  | OAlu op f => EF :: (if alu_writes op then match f with F_RM | F_RMX => [EG] | F_MR | F_MRX => dst_rm | F_AI | F_AIX => [ER 0] end else [])
  | OArithMI | OArithMIX | OArithMI8X | OMiscMI | OMiscMIX | OShiftMI | OShiftMI8X | OShiftM1 | OShiftM1X | OShiftMCl | OShiftMClX
  | OShrdI8 | OShrdCl | OShldI8 | OShldCl | OUnaryM => EF :: dst_rm
  | OIncReg | ODecReg => [EF; ER p]
  | OImulMI8X | OImulMIX | OImulRMX | OBsf => [EF; EG]
  | OUnaryMX => EF :: EV 1 :: EI :: dst_rm
  | OExt0F | OHlt | OOvrSeg | OOvrOpSize | OOvrAddrSize | ORep | ORepnz => []
  | OCallN => [ER 4; EM; EI] | OCallF => [ER 4; EM; EI; EV 1]
  | ORetN | ORetiN => [ER 4; EI] | ORetF | ORetiF => [ER 4; EI; EV 1]
  | OEnter => [ER 4; ER 5; EM] | OLeave => [ER 4; ER 5]
  | OInt3 | OIntI | OInto => [ER 4; EM; EF; EV 1; EI; ECB]
  | OIret => [ER 4; EF; EV 1; EI]
  | OFlag LAHF => [ER 0] | OFlag _ => [EF]
  | OInADx | OInADxX | OInAI | OInAIX => [ER 0; EIO]
  | OOutDxA | OOutDxAX | OOutAI | OOutAIX => [EIO]
  | OJccS _ | OJccN _ | OJcxz | OJmpN | OJmpS => [EI]
  | OLoopnz | OLoopz | OLoop => [ER 1; EI]
  | OJmpF => [EI; EV 1]
  | OCbw | OXlat | OMovAMo | OMovAMoX => [ER 0]
  | OAaa | OAas | OAam | OAad | ODaa | ODas => [ER 0; EF]
  | OCwd => [ER 2]
  | OLxs c => [EG; EV c]
  | OLea | OMovRM | OMovRMX | OMovZ | OMovZX => [EG]
  | OBtx => if p <? 4 then [] else EF :: dst_rm
  | OMovMR | OMovMRX | OMovMI | OMovMIX | OMovRS | OXchgRM | OXchgRMX => dst_rm
  | OMovMoA | OMovMoAX => [EM]
  | OMovSR => [EV 0; EV 1; EV 2; EV 3; EV 4; EV 5]
  | OMovRegB => [ER (if 4 <=? p then p - 4 else p)]
  | OMovReg => [ER p]
  | OXchgReg => if p =? 0 then [] else [ER 0; ER p]
  | OPushSeg | OPushReg | OPushA | OPushF | OPushI | OPushI8 => [ER 4; EM]
  | OPopSeg => [ER 4; EV p]
  | OPopReg => [ER 4; ER p]
  | OPopA => [ER 0; ER 1; ER 2; ER 3; ER 4; ER 5; ER 6; ER 7]
  | OPopF => [ER 4; EF]
  | OPopMX => ER 4 :: dst_rm
  | OStr MOVS _ => [ER 1; ER 6; ER 7; EM]
  | OStr STOS _ => [ER 1; ER 7; EM]
  | OStr LODS _ => [ER 0; ER 1; ER 6]
  | OStr CMPS _ => [ER 1; ER 6; ER 7; EF]
  | OStr SCAS _ => [ER 1; ER 7; EF]
  | OStr INS _ => [ER 1; ER 7; EM; EIO]
  | OStr OUTS _ => [ER 1; ER 6; EIO]
  end.
Definition int0_effs : list eff := [ER 4; EM; EF; EV 1; EI].

Section Foot.
Context (E : env) {Y : Type} (f : arch -> Y).
Definition ig (e : eff) : Prop :=
  match e with
  | EG => forall pos w v a, f (a_gprs (setf pos w v (gprs a)) a) = f a
  | ER r => forall pos w v a, 32 * r <= pos -> 0 <= w -> pos + w <= 32 * r + 32 -> f (a_gprs (setf pos w v (gprs a)) a) = f a
  | EF => forall v a, f (a_flags v a) = f a
  | EM => forall h a, f (a_hmem h a) = f a
  | EV c => forall v a a', sreg_set c v a = Some a' -> f a' = f a
  | EI => forall v a, f (a_ip v a) = f a
  | EIO => forall l a, f (a_iolog l a) = f a
  | ECB => forall h n s, f (ar (callback E h n s)) = f (ar s)
  end.
Definition ft {X} (Q : X -> Prop) (m : M X) : Prop := forall s, match m s with Ok x s' => f (ar s') = f (ar s) /\ Q x | Err _ s' => f (ar s') = f (ar s) | _ => True end.
Definition tr {X} (x : X) : Prop := True.
Lemma ft_bind {X V} (Q : X -> Prop) (R : V -> Prop) (m : M X) (g : X -> M V) : ft Q m -> (forall x, Q x -> ft R (g x)) -> ft R (bind m g).
Proof.
  intros H1 H2 s. unfold bind. specialize (H1 s). destruct (m s) as [x s'|c s'|r|]; auto. destruct H1 as [H1 Hq]. specialize (H2 x Hq s'). destruct (g x s'); auto; [|congruence].
  destruct H2. split; [congruence|assumption].
Qed.
Lemma ft_bind' {X V} (R : V -> Prop) (m : M X) (g : X -> M V) : ft tr m -> (forall x, ft R (g x)) -> ft R (bind m g).
Proof. intros H1 H2. apply (ft_bind tr); auto. Qed.
Lemma ft_ret {X} (Q : X -> Prop) (x : X) : Q x -> ft Q (ret x). Proof. intros H s. split; [reflexivity|exact H]. Qed.
Lemma ft_err {X} (Q : X -> Prop) c : ft Q (@err X c). Proof. intros s. reflexivity. Qed.
Lemma ft_undef {X} (Q : X -> Prop) r : ft Q (@undef X r). Proof. intros s. exact I. Qed.
Lemma ft_fuel {X} (Q : X -> Prop) : ft Q (fun _ => @Fuel X). Proof. intros s. exact I. Qed.
Lemma ft_getA {X} (g : arch -> X) : ft tr (getA g). Proof. intros s. split; [reflexivity|exact I]. Qed.
Lemma ft_getD {X} (g : dec -> X) : ft tr (getD g). Proof. intros s. split; [reflexivity|exact I]. Qed.
Lemma ft_upd_dc g : ft tr (upd_dc g). Proof. intros s. split; [reflexivity|exact I]. Qed.
Lemma ft_upd_ar g : (forall a, f (g a) = f a) -> ft tr (upd_ar g). Proof. intros H s. split; [apply H|exact I]. Qed.
Lemma ft_hload w p : ft tr (hload w p). Proof. intros s. unfold hload. destruct (load_bytes _ _ _); [split; [reflexivity|exact I]|exact I]. Qed.
Lemma ft_hstore w p v : ig EM -> ft tr (hstore w p v). Proof. intros H s. unfold hstore. destruct (valid_bytes _ _ _); [split; [apply H|exact I]|exact I]. Qed.
Lemma ft_getptr sg o : ft tr (getptr E sg o). Proof. intros s. unfold getptr. cbv zeta. destruct (_ <? 272); [|exact I]. destruct (_ && _ && _); [reflexivity|split; [reflexivity|exact I]]. Qed.
Lemma ft_getseg c : ft tr (getseg c). Proof. intros s. unfold getseg. destruct (sreg_of _ _); [split; [reflexivity|exact I]|exact I]. Qed.
Lemma ft_chkseg c : ft tr (chkseg c). Proof. intros s. unfold chkseg. destruct (sreg_of _ _); [split; [reflexivity|exact I]|exact I]. Qed.
Lemma ft_setseg c v : ig (EV c) -> ft tr (setseg c v).
Proof. intros H s. unfold setseg. destruct (sreg_set _ _ _) as [a|] eqn:K; [|exact I]. split; [apply (H _ _ _ K)|exact I]. Qed.
Lemma ft_seg_any c v : (forall i, 0 <= i < 6 -> ig (EV i)) -> ft tr (setseg c v).
Proof.
  intros H s. unfold setseg. destruct (sreg_set _ _ _) as [a|] eqn:K; [|exact I]. split; [|exact I].
  assert (Hc : 0 <= c < 6). { unfold sreg_set in K. destruct c as [|p|p]; [lia| |discriminate]. destruct p as [p|p|]; try (destruct p as [p|p|]); try discriminate; try lia; destruct p; try discriminate; lia. }
  apply (H c Hc _ _ _ K).
Qed.
Lemma ft_gpr_any p w v : ig EG -> ft tr (set_gpr p w v). Proof. intros H. apply ft_upd_ar. intros a. apply H. Qed.
Lemma ft_gpr r p w v : 32 * r <= p -> 0 <= w -> p + w <= 32 * r + 32 -> ig (ER r) -> ft tr (set_gpr p w v). Proof. intros H1 H2 H3 H. apply ft_upd_ar. intros a. apply H; assumption. Qed.
Lemma ft_setW r v : ig (ER r) -> ft tr (setW r v). Proof. apply ft_gpr; lia. Qed.
Lemma ft_setL r v : ig (ER r) -> ft tr (setL r v). Proof. apply ft_gpr; lia. Qed.
Lemma ft_setH r v : ig (ER r) -> ft tr (setH r v). Proof. apply ft_gpr; lia. Qed.
Lemma ft_load w p : ft tr (load w p). Proof. destruct p; [apply ft_getA|apply ft_hload]. Qed.
Lemma ft_store w p v : ig EG -> ig EM -> ft tr (store w p v). Proof. intros H1 H2. destruct p; [apply ft_gpr_any; exact H1|apply ft_hstore; exact H2]. Qed.
Definition isreg (p : ptr) : Prop := match p with PGpr _ => True | PMem _ => False end.
Lemma ft_store_reg w p v : isreg p -> ig EG -> ft tr (store w p v). Proof. intros H1 H2. destruct p; [apply ft_gpr_any; exact H2|contradiction]. Qed.
Lemma ft_io_in w p : ig EIO -> ft tr (io_in E w p). Proof. intros H s. split; [apply H|exact I]. Qed.
Lemma ft_io_out w p v : ig EIO -> ft tr (io_out w p v). Proof. intros H s. split; [apply H|exact I]. Qed.
Lemma ft_set_ip v : ig EI -> ft tr (set_ip v). Proof. intros H. apply ft_upd_ar. intros. apply H. Qed.
Lemma ft_set_flags v : ig EF -> ft tr (set_flags v). Proof. intros H. apply ft_upd_ar. intros. apply H. Qed.
Lemma ft_set_cs v : ig (EV 1) -> ft tr (set_cs v). Proof. intros H. apply ft_upd_ar. intros. apply (H (wrap 16 v) a). reflexivity. Qed.
Lemma ft_hle n : ig ECB -> ft tr (call_hle E n). Proof. intros H s. unfold call_hle. destruct (_ =? 0); (split; [|exact I]); [reflexivity|apply H]. Qed.
Lemma ft_opw : ft (fun w => w = 16 \/ w = 32) opw. Proof. intros s. unfold opw, bind, getD, gets. split; [reflexivity|]. destruct (d_op (dc s)); auto. Qed.

Ltac igs := solve [assumption | match goal with H : forall x, In x _ -> ig x |- ig ?e => apply H; cbn; tauto end].
Ltac fst_ :=
  lazymatch goal with
  | |- ft _ (bind opw _) => apply (ft_bind _ _ _ _ ft_opw); intros ? ?
  | |- ft _ (bind _ _) => apply ft_bind'; [|intros ?]
  | |- ft _ (ret _) => apply ft_ret; try exact I
  | |- ft _ (err _) => apply ft_err
  | |- ft _ (undef _) => apply ft_undef
  | |- ft _ (getA _) => apply ft_getA
  | |- ft _ (getD _) => apply ft_getD
  | |- ft _ (upd_dc _) => apply ft_upd_dc
  | |- ft _ (hload _ _) => apply ft_hload
  | |- ft _ (hstore _ _ _) => apply ft_hstore; igs
  | |- ft _ (getptr _ _ _) => apply ft_getptr
  | |- ft _ (getseg _) => apply ft_getseg
  | |- ft _ (chkseg _) => apply ft_chkseg
  | |- ft _ (setseg _ _) => apply ft_setseg; igs
  | |- ft _ (load _ _) => apply ft_load
  | |- ft _ (store _ (regW ?r) _) => apply (ft_gpr r); [lia|lia|lia|igs]
  | |- ft _ (store _ _ _) => first [apply ft_store_reg; [assumption|igs] | apply ft_store; igs]
  | |- ft _ (io_in _ _ _) => apply ft_io_in; igs
  | |- ft _ (io_out _ _ _) => apply ft_io_out; igs
  | |- ft _ (call_hle _ _) => apply ft_hle; igs
  | |- ft _ (if ?b then _ else _) => destruct b
  | |- ft _ (let '(_, _) := ?e in _) => destruct e
  | |- ft _ (match ?e with _ => _ end) => destruct e
  | |- ft _ (let _ := _ in _) => cbv zeta
  | |- ft _ (set_gpr 0 _ _) => apply (ft_gpr R_AX); [unfold R_AX; lia|lia|unfold R_AX; lia|igs]
  | |- ft _ (set_gpr 64 _ _) => apply (ft_gpr R_DX); [unfold R_DX; lia|lia|unfold R_DX; lia|igs]
  | |- ft _ (set_gpr (32 * ?p + 16) _ _) => apply (ft_gpr p); [lia|lia|lia|igs]
  | |- ft _ (setW _ _) => apply ft_setW; igs
  | |- ft _ (setL _ _) => apply ft_setL; igs
  | |- ft _ (setH _ _) => apply ft_setH; igs
  | |- ft _ (set_ip _) => apply ft_set_ip; igs
  | |- ft _ (set_cs _) => apply ft_set_cs; igs
  | |- ft _ (set_flags _) => apply ft_set_flags; igs
  | |- ft _ (get_gpr _ _) => apply ft_getA
  | |- ft _ (getW _) => apply ft_getA
  | |- ft _ (getDw _) => apply ft_getA
  | |- ft _ (getL _) => apply ft_getA
  | |- ft _ (getH _) => apply ft_getA
  | |- ft _ getflags => apply ft_getA
  | |- ft _ next_ip => unfold next_ip
  | |- ft _ dont_change_ip => apply ft_upd_dc
  | |- ft _ (upd_flags _) => unfold upd_flags
  | |- ft _ (rd _ _ _ _) => unfold rd
  | |- ft _ (wr _ _ _ _ _) => unfold wr
  | |- ft _ (fetch _ _) => unfold fetch
  | |- ft _ (fetch8 _) => unfold fetch8, fetch
  | |- ft _ (fetch16 _) => unfold fetch16, fetch
  | |- ft _ (fetch32 _) => unfold fetch32, fetch
  | |- ft _ (fetch8s _) => unfold fetch8s
  | |- ft _ (push _ _) => unfold push
  | |- ft _ (pop _) => unfold pop
  | |- ft _ (pop_to _ _) => unfold pop_to
  | |- ft _ (ea_segment _ _) => unfold ea_segment
  | |- ft _ (sib_index _) => unfold sib_index
  | |- ft _ data_seg => unfold data_seg
  | |- ft _ (moffs _) => unfold moffs
  | |- ft _ (peek8 _) => unfold peek8
  | |- ft _ (get_modrm _) => unfold get_modrm
  | |- ft _ (jump_if _ _) => unfold jump_if
  | |- ft _ (push_imm _ _) => unfold push_imm
  end.
Ltac fw := repeat fst_.
Lemma ft_dofunc m b d : ft tr (dofunc E m b d). Proof. unfold dofunc. fw. Qed.
Lemma ft_dofunc32 m b d : ft tr (dofunc32 E m b d). Proof. unfold dofunc32. fw. Qed.
Lemma ft_mmm m : ft tr (get_mmm E m). Proof. unfold get_mmm. repeat (first [apply ft_dofunc|apply ft_dofunc32|fst_]). Qed.
Lemma ft_modm m : ft tr (decode_modm E m). Proof. unfold decode_modm. repeat (first [apply ft_mmm|fst_]). Qed.
Lemma ft_modmx m : ft tr (decode_modmx E m). Proof. unfold decode_modmx. repeat (first [apply ft_mmm|fst_]). Qed.

Lemma ft_modrm : ft tr (get_modrm E). Proof. fw. Qed.
Lemma ft_nocheck : ft tr (get_modrm_nocheck E).
Proof. intros s. pose proof (ft_modrm s) as H. unfold get_modrm_nocheck. destruct (get_modrm E s); auto. Qed.
Definition reg1 (rm : ptr * ptr) : Prop := isreg (fst rm).
Lemma ft_parse : ft reg1 (parse_modrm E).
Proof. unfold parse_modrm. apply ft_bind'; [apply ft_modrm|intros]. apply ft_bind'; [apply ft_modm|intros]. apply ft_ret. exact I. Qed.
Lemma ft_parsex : ft reg1 (parse_modrmx E).
Proof. unfold parse_modrmx. apply ft_bind'; [apply ft_modrm|intros]. apply ft_bind'; [apply ft_modmx|intros]. apply ft_ret. exact I. Qed.
Lemma ft_farptr : ft tr (parse_farptr E). Proof. unfold parse_farptr. repeat (first [apply ft_mmm|fst_]). Qed.
Lemma ft_param e : ft tr (op_param E e). Proof. unfold op_param. repeat (first [apply ft_nocheck|fst_]). Qed.
Ltac fst1 :=
  lazymatch goal with
  | |- ft _ (bind (parse_modrm _) _) => apply (ft_bind _ _ _ _ ft_parse); intros ? ?
  | |- ft _ (bind (parse_modrmx _) _) => apply (ft_bind _ _ _ _ ft_parsex); intros ? ?
  | |- ft _ (get_mmm _ _) => apply ft_mmm
  | |- ft _ (decode_modm _ _) => apply ft_modm
  | |- ft _ (decode_modmx _ _) => apply ft_modmx
  | |- ft _ (get_modrm_nocheck _) => apply ft_nocheck
  | |- ft _ (parse_farptr _) => apply ft_farptr
  | |- ft _ (alu2 _ _ _ _) => unfold alu2
  | |- ft _ (alu2i _ _ _ _) => unfold alu2i
  | |- ft _ (copy _ _ _) => unfold copy
  | |- ft _ (xchg _ _ _) => unfold xchg
  | |- ft _ (alu1 _ _ _) => unfold alu1
  | |- ft _ (do_shift _ _ _ _) => unfold do_shift
  | |- ft _ (do_dbl _ _ _ _ _) => unfold do_dbl
  | |- ft _ (imul2 _ _ _) => unfold imul2
  | |- ft _ (loop_with _ _) => unfold loop_with
  | |- ft _ (misc_select _ _ _ _) => unfold misc_select
  | |- ft _ (call_interrupt _ _) => unfold call_interrupt
  | _ => fst_
  end.
Lemma ft_alu_vals op w p d v : ig EF -> (alu_writes op = true -> forall v, ft tr (store w p v)) -> ft tr (alu_vals op w p d v).
Proof. intros H1 H2. unfold alu_vals. fw. auto. Qed.
Lemma ft_eg_er r : ig EG -> ig (ER r). Proof. intros H pos w v a _ _ _. apply H. Qed.
Lemma ft_enter_loop n : ig (ER 4) -> ig (ER 5) -> ig EM -> ft tr (enter_loop E n).
Proof. intros H4 H5 HM. induction n as [|n IH]; cbn [enter_loop]; repeat (first [exact IH|fst1]). Qed.
Lemma ft_muls w p : w = 8 \/ w = 16 \/ w = 32 -> ig EG -> ig EF -> ft tr (mul_body w p) /\ ft tr (imul_body w p) /\ ft tr (div_body w p) /\ ft tr (idiv_body w p).
Proof.
  intros Hw HG HF. pose proof (ft_eg_er 0 HG) as H0. pose proof (ft_eg_er 2 HG) as H2. split; [|split; [|split]]; unfold mul_body, imul_body, div_body, idiv_body; repeat fst1.
Qed.
Lemma ft_str_body o w a b c d : w = 8 \/ w = 16 \/ w = 32 -> (forall x, In x (effs (OStr o true) 0) -> ig x) -> ft tr (str_body E o w a b c d).
Proof. intros Hw H. unfold str_body. destruct o; repeat (first [apply ft_alu_vals; [igs|discriminate]|fst1]). Qed.
Lemma ft_str_loop n : forall o w m a b c d, w = 8 \/ w = 16 \/ w = 32 -> (forall x, In x (effs (OStr o true) 0) -> ig x) -> ft tr (str_loop E n o w m a b c d).
Proof.
  induction n as [|n IH]; intros; cbn [str_loop]; [apply ft_fuel|].
  assert (ig (ER R_CX)) by (destruct o; igs).
  repeat (lazymatch goal with |- ft _ (str_body _ _ _ _ _ _ _) => apply ft_str_body; assumption | |- ft _ (str_loop _ _ _ _ _ _ _ _ _) => apply IH; assumption | _ => fst1 end).
Qed.
Lemma ft_callint0 : (forall x, In x int0_effs -> ig x) -> ft tr (int_callint E 0).
Proof. intros H. unfold int_callint. change ((0 <? 0) || (255 <? 0)) with false. cbv iota. repeat fst1. Qed.
Lemma ft_advance : ig EI -> ft tr advance_ip. Proof. intros H. unfold advance_ip. fw. Qed.
Lemma ft_alu2 op w p q : ig EF -> (alu_writes op = true -> forall v, ft tr (store w p v)) -> ft tr (alu2 op w p q).
Proof. intros H1 H2. unfold alu2. repeat (first [apply ft_alu_vals; assumption|fst1]). Qed.
Lemma ft_alu2i op w p i : ig EF -> (alu_writes op = true -> forall v, ft tr (store w p v)) -> ft tr (alu2i op w p i).
Proof. intros H1 H2. unfold alu2i. repeat (first [apply ft_alu_vals; assumption|fst1]). Qed.
Lemma ft_misc p w q : w = 8 \/ w = 16 \/ w = 32 -> ig EG -> ig EM -> ig EF -> ft tr (misc_select E p w q).
Proof.
  intros Hw HG HM HF. destruct (ft_muls w q Hw HG HF) as (K1 & K2 & K3 & K4). unfold misc_select.
  repeat (first [assumption|apply ft_alu_vals; [assumption|discriminate]|fst1]).
Qed.
Lemma foot_exec1 o p : (forall x, In x (effs o p) -> ig x) -> ft tr (exec1 E o p).
Proof.
  intros H.
  assert (DW : forall w, w = 16 \/ w = 32 -> w = 8 \/ w = 16 \/ w = 32) by (intros; tauto).
  destruct o; cbn [exec1]; try apply ft_err.
  - unfold x_alu. cbn [effs] in H. destruct f0; repeat (first [apply ft_alu2; [igs|intros Hal; rewrite Hal in H; intros ?; fst1] | apply ft_alu2i; [igs|intros Hal; rewrite Hal in H; intros ?] | fst1]);
    change (regB 0) with (regW 0); fst1.
  - unfold x_arith_mi. repeat (first [apply ft_alu2i; [igs|intros _ ?; fst1]|fst1]).
  - unfold x_arith_mix. repeat (first [apply ft_alu2i; [igs|intros _ ?; fst1]|fst1]).
  - unfold x_arith_mi8x. repeat (first [apply ft_alu2i; [igs|intros _ ?; fst1]|fst1]).
  - unfold x_inc_reg. repeat fst1.
  - unfold x_dec_reg. repeat fst1.
  - unfold x_misc_mi. fst1. apply ft_misc; [tauto|igs|igs|igs].
  - unfold x_misc_mix. fst1. fst1. apply ft_misc; [tauto|igs|igs|igs].
  - unfold x_imul_mi8x. repeat fst1.
  - unfold x_imul_mix. repeat fst1.
  - unfold x_imul_rmx. repeat fst1.
  - unfold x_shift_mi. repeat fst1.
  - unfold x_shift_mi8x. repeat fst1.
  - unfold x_shift_m1. repeat fst1.
  - unfold x_shift_m1x. repeat fst1.
  - unfold x_shift_mcl. repeat fst1.
  - unfold x_shift_mclx. repeat fst1.
  - unfold x_dbl_i8. repeat fst1.
  - unfold x_dbl_cl. repeat fst1.
  - unfold x_dbl_i8. repeat fst1.
  - unfold x_dbl_cl. repeat fst1.
  - unfold x_unary_m. repeat fst1.
  - unfold x_unary_mx. assert (ig (ER R_SP)) by (apply ft_eg_er; igs). repeat fst1.
  - unfold x_call_n. repeat fst1.
  - unfold x_call_f. repeat fst1.
  - unfold x_ret_n. repeat fst1.
  - unfold x_ret_f. repeat fst1.
  - unfold x_ret_in. repeat fst1.
  - unfold x_ret_if. repeat fst1.
  - unfold x_enter. repeat (first [apply ft_enter_loop; igs|fst1]).
  - unfold x_leave. repeat fst1.
  - repeat fst1.
  - unfold x_int_i. repeat fst1.
  - unfold x_into. repeat fst1.
  - unfold x_iret. repeat fst1.
  - unfold x_flag. destruct o; repeat fst1.
  - unfold x_in_adx. repeat fst1.
  - unfold x_in_adxx. repeat fst1.
  - unfold x_in_ai. repeat fst1.
  - unfold x_in_aix. repeat fst1.
  - unfold x_out_dxa. repeat fst1.
  - unfold x_out_dxax. repeat fst1.
  - unfold x_out_ai. repeat fst1.
  - unfold x_out_aix. repeat fst1.
  - unfold x_jcc_s. repeat fst1.
  - unfold x_jcc_n. repeat fst1.
  - unfold x_jcxz. repeat fst1.
  - repeat fst1.
  - repeat fst1.
  - repeat fst1.
  - unfold x_jmp_n. repeat fst1.
  - unfold x_jmp_f. repeat fst1.
  - unfold x_jmp_s. repeat fst1.
  - unfold x_cbw. repeat fst1.
  - unfold x_bsf. repeat fst1.
  - unfold x_aaas. repeat fst1.
  - unfold x_aaas. repeat fst1.
  - unfold x_aam. repeat fst1.
  - unfold x_aad. repeat fst1.
  - unfold x_daas. repeat fst1.
  - unfold x_daas. repeat fst1.
  - unfold x_cwd. repeat fst1.
  - unfold x_lxs. repeat (lazymatch goal with |- ft _ (store _ _ _) => apply ft_store_reg; [exact I|igs] | _ => fst1 end).
  - unfold x_lea. repeat (lazymatch goal with |- ft _ (store _ _ _) => apply ft_store_reg; [exact I|igs] | _ => fst1 end).
  - unfold x_xlat. repeat fst1.
  - unfold x_btx. cbn [effs] in H. destruct (p <? 4); [apply ft_err|]. repeat fst1.
  - unfold x_mov_mr. repeat fst1.
  - unfold x_mov_mrx. repeat fst1.
  - unfold x_mov_rm. repeat fst1.
  - unfold x_mov_rmx. repeat fst1.
  - unfold x_mov_mi. repeat fst1.
  - unfold x_mov_mix. repeat fst1.
  - unfold x_mov_amo. repeat fst1.
  - unfold x_mov_amox. repeat fst1.
  - unfold x_mov_moa. repeat fst1.
  - unfold x_mov_moax. repeat fst1.
  - unfold x_mov_rs. repeat fst1.
  - unfold x_mov_sr. assert (KS : forall i, 0 <= i < 6 -> ig (EV i)).
    { intros i Hi. assert (K : i = 0 \/ i = 1 \/ i = 2 \/ i = 3 \/ i = 4 \/ i = 5) by lia. destruct K as [->|[->|[->|[->|[->| ->]]]]]; igs. }
    repeat (lazymatch goal with |- ft _ (setseg _ _) => apply ft_seg_any; exact KS | _ => fst1 end).
  - unfold x_mov_regb. fst1; [fst1; repeat fst1|]. unfold regB. cbn [store]. cbn [effs] in H. destruct (Z.leb_spec 4 p); [apply (ft_gpr (p - 4)); try lia; igs|apply (ft_gpr p); try lia; igs].
  - unfold x_mov_reg. repeat fst1.
  - unfold x_mov_z. repeat (lazymatch goal with |- ft _ (store _ _ _) => apply ft_store_reg; [exact I|igs] | _ => fst1 end).
  - unfold x_mov_zx. repeat (lazymatch goal with |- ft _ (store _ _ _) => apply ft_store_reg; [exact I|igs] | _ => fst1 end).
  - unfold x_xchg_rm. repeat fst1.
  - unfold x_xchg_rmx. repeat fst1.
  - unfold x_xchg_reg. cbn [effs] in H. destruct (p =? 0); [repeat fst1|]. repeat fst1.
  - unfold x_push_seg. repeat fst1.
  - unfold x_pop_seg. repeat fst1.
  - unfold x_push_reg. repeat fst1.
  - unfold x_pop_reg. repeat fst1.
  - unfold x_pusha. repeat fst1.
  - unfold x_popa. repeat fst1.
  - unfold x_pushf. repeat fst1.
  - unfold x_popf. repeat fst1.
  - unfold x_pop_mx. repeat fst1.
  - unfold x_push_i. repeat fst1.
  - unfold x_push_i8. repeat fst1.
  - unfold x_str. fst1. set (w := if wide then _ else _). assert (Hw : w = 8 \/ w = 16 \/ w = 32) by (subst w; destruct wide; tauto). clearbody w. cbv zeta.
    assert (He : forall x, In x (effs (OStr o true) 0) -> ig x) by (intros; apply H; destruct o; assumption).
    fst1; [fst1|]. set (m := if x0 then 32 else 16). assert (Hm : m = 16 \/ m = 32) by (subst m; destruct x0; tauto). clearbody m.
    destruct o; cbn [str_di str_si];
    repeat (lazymatch goal with |- ft _ (str_loop _ _ _ _ _ _ _ _ _) => apply ft_str_loop; assumption
     | |- ft _ (set_gpr 224 _ _) => apply (ft_gpr 7); [lia|lia|lia|igs]
     | |- ft _ (set_gpr 192 _ _) => apply (ft_gpr 6); [lia|lia|lia|igs] | _ => fst1 end).
  - unfold x_ovr_seg. repeat fst1.
  - unfold x_ovr_op. repeat fst1.
  - unfold x_ovr_addr. repeat fst1.
  - unfold x_rep. repeat fst1.
  - unfold x_rep. repeat fst1.
Qed.
End Foot.

(** ** Whole instructions *)
(** The effects the opcode b (with second byte b2) can have. *)
Definition eff1 (b : Z) : list eff := match ca_op b with Some e => effs (e_op e) (e_arg e) | None => [] end.
Definition eff0F (b : Z) : list eff := match ca_op0F b with Some e => effs (e_op e) (e_arg e) | None => [] end.
Definition eff_at (b b2 : Z) : list eff := if b =? 0x0F then eff0F b2 else eff1 b.
Definition names_const (o : opid) : bool :=
  match o with OArithMI | OArithMIX | OArithMI8X | OMiscMI | OMiscMIX | OShiftMI | OShiftMI8X | OShiftM1 | OShiftM1X | OShiftMCl | OShiftMClX | OUnaryM | OUnaryMX => true | _ => false end.
Lemma names_effs o p q : names_const o = true -> effs o p = effs o q.
Proof. destruct o; intros; try discriminate; reflexivity. Qed.
Lemma names_row b e : ca_op b = Some e -> e_names e = true -> names_const (e_op e) = true.
Proof.
  intros H K. unfold ca_op in H.
  pose proof (PTop.ca_table (fun e => negb (e_names e) || names_const (e_op e)) caOperations b e ltac:(vm_compute; reflexivity) H) as T. cbn beta in T. rewrite K in T. exact T.
Qed.
Lemma ext_row b e : 0 <= b < 256 -> ca_op b = Some e -> is_0F (e_op e) = (b =? 0x0F).
Proof.
  intros Hb He. assert (K : forallb (fun b => match ca_op b with Some e => Bool.eqb (is_0F (e_op e)) (b =? 0x0F) | None => true end) idx = true) by (vm_compute; reflexivity).
  pose proof (idx_ok _ K b Hb) as R. cbn beta in R. rewrite He in R. apply Bool.eqb_prop in R. exact R.
Qed.

Section Whole.
Context (E : env) (base : Z) (Q : quiet_host E) {Y : Type} (f : arch -> Y) (rel : eff -> bool) (Hrel : forall x, rel x = false -> ig E f x).
Definition hits (l : list eff) : bool := existsb rel l.
Lemma hits_none l : hits l = false -> forall x, In x l -> ig E f x.
Proof. intros H x Hx. apply Hrel. destruct (rel x) eqn:K; [|reflexivity]. assert (hits l = true) by (apply existsb_exists; eauto). congruence. Qed.
Lemma once_foot s : flat E base (ar s) -> wf_regs (ar s) ->
  hits (eff_at (ipbyte (ar s) (d_ipoff (dc s))) (ipbyte (ar s) (d_ipoff (dc s) + 1))) = true \/
  match op_once E s with Ok _ s' | Err _ s' => f (ar s') = f (ar s) | _ => True end.
Proof.
  intros F W. destruct (hits _) eqn:Hh; [left; reflexivity|right]. revert Hh. destruct s as [a d g n l]. cbn [ar dc] in *. unfold op_once. erewrite bind_ok by (apply (fetch8_any E base); assumption). cbn beta.
  assert (Hb : 0 <= ipbyte a (d_ipoff d) < 256) by (apply (ipbyte_range E base _ _ F W)).
  set (b := ipbyte a (d_ipoff d)) in *. set (s1 := mkSt a (dd_ipoff (d_ipoff d + 1) d) g n l).
  destruct (b =? 241); [reflexivity|].
  destruct (ca_op b) as [e|] eqn:He; [|reflexivity].
  unfold eff_at, eff1. rewrite He. pose proof (ext_row b e Hb He) as Hx. unfold bind at 1.
  destruct (e_names e) eqn:Hn.
  - pose proof (names_row b e He Hn) as Hc. pose proof (ft_param E f e s1) as Hp. destruct (op_param E e s1) as [k s2|c2 s2|r|]; auto. destruct Hp as [Hp _].
    assert (Hz : is_0F (e_op e) = false) by (destruct (e_op e); try discriminate Hc; reflexivity). rewrite Hz in Hx. rewrite <- Hx. intros Hh.
    assert (Hex : exec E (e_op e) k s2 = exec1 E (e_op e) k s2) by (destruct (e_op e); try discriminate Hz; reflexivity). rewrite Hex.
    rewrite (names_effs _ (e_arg e) k Hc) in Hh. pose proof (foot_exec1 E f (e_op e) k (hits_none _ Hh) s2) as K. change (ar s1) with a in Hp.
    destruct (exec1 E (e_op e) k s2); auto; [destruct K|]; congruence.
  - unfold op_param. rewrite Hn. cbn [ret]. unfold ret. rewrite <- Hx. destruct (is_0F (e_op e)) eqn:Hz.
    + destruct (e_op e) eqn:Eo; try discriminate Hz. unfold exec. unfold s1. erewrite bind_ok by (apply (fetch8_any E base); assumption). cbn beta. cbn [dd_ipoff d_ipoff].
      unfold eff0F. destruct (ca_op0F _) as [e2|]; [|reflexivity]. intros Hh.
      match goal with |- context [exec1 E _ _ ?st2] => pose proof (foot_exec1 E f (e_op e2) (e_arg e2) (hits_none _ Hh) st2) as K; destruct (exec1 E (e_op e2) (e_arg e2) st2); auto end.
      destruct K as [K _]. exact K.
    + assert (Hex : exec E (e_op e) (e_arg e) s1 = exec1 E (e_op e) (e_arg e) s1) by (destruct (e_op e); try discriminate Hz; reflexivity). rewrite Hex. intros Hh.
      pose proof (foot_exec1 E f (e_op e) (e_arg e) (hits_none _ Hh) s1) as K. destruct (exec1 E (e_op e) (e_arg e) s1); auto. destruct K as [K _]. exact K.
Qed.
(** There are prefixes and then the opcode b, b2 at CS:IP+i. *)
Definition opcode_from (a : arch) (i : Z) (P : Z -> Z -> Prop) : Prop :=
  exists k, 0 <= k /\ (forall j, 0 <= j < k -> prefix_byte (ipbyte a (i + j))) /\ P (ipbyte a (i + k)) (ipbyte a (i + (k + 1))).
Lemma loop_foot n : forall s, flat E base (ar s) -> wf_regs (ar s) -> byte_memory s ->
  opcode_from (ar s) (d_ipoff (dc s)) (fun b b2 => hits (eff_at b b2) = true) \/
  match op_loop E n s with Ok _ s' | Err _ s' => f (ar s') = f (ar s) | _ => True end.
Proof.
  induction n as [|n IH]; intros s F W Hby; cbn [op_loop]; [right; exact I|].
  destruct (once_foot s F W) as [H|H]. { left. exists 0. split; [lia|]. split; [lia|]. rewrite !Z.add_0_r. rewrite Z.add_0_l. exact H. }
  destruct (op_once E s) as [u s1|c1 s1|r|] eqn:E1; try (right; exact H).
  destruct (Z.eqb_spec c1 E_CONTINUE) as [->|N]; [|right; exact H].
  destruct (once_codes E Q base s _ s1 F W Hby E1) as [_ [Hc|(_ & Hp & Ha & Hd & Hop)]]; [unfold cause, E_BREAK, E_HALT, E_DIVERR, E_BADMEM, E_UNDEF, E_BUG, E_CONTINUE in Hc; lia|].
  assert (F1 : flat E base (ar s1)) by (rewrite Ha; exact F). assert (W1 : wf_regs (ar s1)) by (rewrite Ha; exact W).
  assert (Hb1 : byte_memory s1) by (intros x b; rewrite Ha; apply Hby).
  destruct (IH s1 F1 W1 Hb1) as [(k & Hk & Hpre & Hx)|K]; [left|right; rewrite Ha in K; exact K].
  rewrite Ha, Hd in *. exists (k + 1). split; [lia|]. split.
  - intros j Hj. destruct (Z.eq_dec j 0) as [->|N]; [rewrite Z.add_0_r; exact Hp|]. replace (d_ipoff (dc s) + j) with (d_ipoff (dc s) + 1 + (j - 1)) by lia. apply Hpre. lia.
  - replace (d_ipoff (dc s) + (k + 1 + 1)) with (d_ipoff (dc s) + 1 + (k + 1)) by lia. replace (d_ipoff (dc s) + (k + 1)) with (d_ipoff (dc s) + 1 + k) by lia. exact Hx.
Qed.
Lemma dump_arch n : forall cs i s, match dump_bytes E n cs i s with Ok _ s' | Err _ s' => ar s' = ar s | _ => True end.
Proof.
  induction n as [|n IH]; intros; cbn [dump_bytes]; [reflexivity|]. unfold bind. pose proof (ft_getptr E (fun a => a) cs (wrap 16 i) s) as H. unfold rd, bind.
  destruct (getptr E cs (wrap 16 i) s) as [x s1|c s1|r|]; auto. destruct H as [H _]. cbn in H. pose proof (ft_hload (fun a => a) 8 x s1) as H2. destruct (hload 8 x s1) as [y s2|c s2|r|]; auto; [|congruence].
  destruct H2 as [H2 _]. pose proof (IH cs (wrap 16 (i + 1)) s2) as H3. destruct (dump_bytes E n cs (wrap 16 (i + 1)) s2); auto; congruence.
Qed.
Lemma trace_arch cs ip s : match trace_dump E cs ip s with Ok _ s' | Err _ s' => ar s' = ar s | _ => True end.
Proof.
  unfold trace_dump, bind, gets, getD. destruct (1 <=? dbg s); [|reflexivity]. unfold gets. destruct (_ <? 0); [exact I|]. apply dump_arch.
Qed.
Lemma null_arch cs ip s : match null_hack E cs ip s with Ok _ s' | Err _ s' => ar s' = ar s | _ => True end.
Proof.
  unfold null_hack, getD. unfold bind at 1, gets. destruct (_ =? 2); [|reflexivity]. 
  assert (R : forall o s, match rd E 8 cs o s with Ok _ s' | Err _ s' => ar s' = ar s | _ => True end).
  { intros o s0. pose proof (ft_getptr E (fun a => a) cs (wrap 16 o) s0) as H. unfold rd, bind. destruct (getptr E cs (wrap 16 o) s0) as [x s1|c s1|r|]; auto. destruct H as [H _].
    pose proof (ft_hload (fun a => a) 8 x s1) as H2. destruct (hload 8 x s1); auto; [destruct H2 as [H2 _]|]; congruence. }
  pose proof (R ip s) as R1. unfold bind at 1. destruct (rd E 8 cs ip s) as [x s1|c s1|r|]; auto.
  pose proof (R (ip + 1) s1) as R2. unfold bind at 1. destruct (rd E 8 cs (ip + 1) s1) as [y s2|c s2|r|]; auto; [|congruence].
  destruct (_ && _); [|cbn; congruence]. unfold bind, gets. destruct (lastnull s2); cbn; congruence.
Qed.
Theorem run_foot s s' : rel EI = false ->
  flat E base (ar s) -> wf_state s -> at_instruction (ar s) -> (run_one E s = Ok tt s' \/ exists c, run_one E s = Err c s') ->
  f (ar s') = f (ar s) \/ opcode_from (ar s) 0 (fun b b2 => hits (eff_at b b2) = true \/ (hits int0_effs = true /\ divides b)).
Proof.
  intros HI F Ws [Nm Nh] Hr. assert (W : wf_regs (ar s)) by apply Ws. assert (Hby : byte_memory s) by (exact (ws_bytes _ Ws)).
  unfold run_one in Hr. unfold magic in Nm. unfold hle_entry_pc in Nh.
  replace ((r_ip (ar s) =? 65535) && (r_cs (ar s) =? 65535)) with false in Hr by (destruct (Z.eqb_spec (r_ip (ar s)) 65535), (Z.eqb_spec (r_cs (ar s)) 65535); cbn; tauto).
  replace ((r_cs (ar s) =? 47104) && (r_ip (ar s) <? 256)) with false in Hr.
  2:{ pose proof (wf_ip _ W) as Hip. destruct (Z.eqb_spec (r_cs (ar s)) 47104), (Z.ltb_spec (r_ip (ar s)) 256); cbn; try reflexivity. exfalso. apply Nh. unfold inrange in Hip. split; [assumption|lia]. }
  revert Hr. unfold do_opcode, bind, getA, gets, upd_dc, modify. destruct (icount _ =? 2147483647); [intros [?|[? ?]]; discriminate|].
  match goal with |- context [op_loop E 6 ?x] => set (s0 := x) end.
  assert (A0 : ar s0 = ar s) by reflexivity. assert (D0 : d_ipoff (dc s0) = 0) by reflexivity. clearbody s0.
  assert (Hb0 : byte_memory s0) by (intros x b; rewrite A0; apply Hby). rewrite <- A0 in F, W |- *.
  destruct (loop_foot 6 s0 F W Hb0) as [L|L]; [rewrite D0 in L; right; destruct L as (k & L1 & L2 & L3); exists k; auto|].
  pose proof (loop_bytes E Q 6 s0 Hb0) as Hb2.
  destruct (op_loop E 6 s0) as [u2 s2|c2 s2|r|] eqn:El; try (intros [?|[? ?]]; discriminate); destruct Hb2 as [Hb2 Hn2].
  - pose proof (says_advance (fun _ => False) s2 Hb2) as Hadv. pose proof (ft_advance E f (Hrel _ HI) s2) as Ha. destruct (advance_ip s2) as [u3 s3|c3 s3|r|]; try (intros [?|[? ?]]; discriminate); [destruct Ha as [Ha _]|destruct Hadv as [[] _]].
    destruct Hadv as (_ & Hb3 & _). pose proof (null_arch (r_cs (ar s0)) (r_ip (ar s0)) s3) as Hnu.
    destruct (null_hack E (r_cs (ar s0)) (r_ip (ar s0)) s3) as [u4 s4|c4 s4|r|] eqn:En; try (intros [?|[? ?]]; discriminate).
    + pose proof (trace_arch (r_cs (ar s0)) (r_ip (ar s0)) s4) as Ht. assert (Hb4 : byte_memory s4) by (intros x b; rewrite (null_bytes _ _ _ _ _ _ En); apply Hb3).
      destruct (trace_dump E (r_cs (ar s0)) (r_ip (ar s0)) s4) as [u5 s5|c5 s5|r|] eqn:Et; try (intros [?|[? ?]]; discriminate).
      * intros [K|[c K]]; [|discriminate]. injection K as _ <-. left. congruence.
      * rewrite (trace_codes E _ _ _ _ _ Hb4 Et). intros [K|[c K]]; [discriminate|]. injection K as <- <-. left. congruence.
    + destruct (null_codes _ _ _ _ _ _ Hb3 En) as [->|(-> & _)]; intros [K|[c K]]; try discriminate; injection K as <- <-; left; congruence.
  - destruct (Z.eqb_spec c2 E_DIVERR) as [->|N]; [|intros [K|[c K]]; [discriminate|]; injection K as <- <-; left; congruence].
    destruct (loop_codes E Q base 6 s0 _ s2 F W Hb0 El) as (_ & k & op & Hk & Hp & Hc & _). rewrite D0 in *.
    assert (Hdv : divides (ipbyte (ar s0) (0 + k))) by (unfold cause, E_BREAK, E_HALT, E_DIVERR, E_BADMEM, E_UNDEF, E_BUG in Hc; destruct Hc as [[Hc _]|[[Hc _]|[[_ Hc]|[Hc|[[Hc _]|[Hc _]]]]]]; try discriminate Hc; exact Hc).
    destruct (hits int0_effs) eqn:H00. { intros _. right. exists k. split; [exact Hk|]. split; [exact Hp|]. right. split; [reflexivity|exact Hdv]. }
    pose proof (ft_callint0 E f (hits_none _ H00) s2) as Hi. intros K. left. destruct K as [K|[c K]]; rewrite K in Hi; [destruct Hi as [Hi _]|]; congruence.
Qed.
End Whole.

(** ** The opcode lists *)
Definition sweep (rel : eff -> bool) (l l0F : list Z) : bool := forallb (fun b => (b =? 0x0F) || impb (existsb rel (eff1 b)) (mem_b l b)) idx && forallb (fun b => impb (existsb rel (eff0F b)) (mem_b l0F b)) idx.
Lemma run_listed E base {Y} (f : arch -> Y) rel l l0F s s' : quiet_host E -> (forall x, rel x = false -> ig E f x) -> sweep rel l l0F = true ->
  rel EI = false -> (existsb rel int0_effs = true -> forallb (mem_b l) [0xF6; 0xF7; 0xD4] = true) ->
  flat E base (ar s) -> wf_state s -> at_instruction (ar s) -> (run_one E s = Ok tt s' \/ exists c, run_one E s = Err c s') ->
  f (ar s') = f (ar s) \/ opcode2_at (ar s) (listed l l0F).
Proof.
  intros Q Hrel Hs HI H0 F Ws Ai Hr.
  destruct (run_foot E base Q f rel Hrel s s' HI F Ws Ai Hr) as [H|(k & Hk & Hp & Hh)]; [left; exact H|right]. exists k. split; [exact Hk|]. split; [exact Hp|].
  rewrite !Z.add_0_l in Hh. assert (W : wf_regs (ar s)) by apply Ws.
  pose proof (ipbyte_range E base _ k F W) as R1. pose proof (ipbyte_range E base _ (k + 1) F W) as R2.
  apply andb_true_iff in Hs. destruct Hs as [S1 S2]. unfold hits, eff_at in Hh. unfold listed. destruct Hh as [Hh|[Hh Hd]].
  2:{ left. specialize (H0 Hh). cbn [forallb] in H0. apply andb_true_iff in H0. destruct H0 as [K1 H0]. apply andb_true_iff in H0. destruct H0 as [K2 H0]. apply andb_true_iff in H0. destruct H0 as [K3 _].
      apply mem_In. destruct Hd as [->|[->| ->]]; assumption. }
  destruct (Z.eqb_spec (ipbyte (ar s) k) 0x0F) as [Hb|Hb].
  - right. split; [exact Hb|]. apply mem_In. apply (impb_ok _ _ (idx_ok _ S2 _ R2) Hh).
  - left. apply mem_In. pose proof (idx_ok _ S1 _ R1) as K. cbn beta in K. replace (ipbyte (ar s) k =? 15) with false in K by lia. apply (impb_ok _ _ K Hh).
Qed.
Section Lists.
Context (E : env) (base : Z) (Q : quiet_host E) (s s' : st) (F : flat E base (ar s)) (Ws : wf_state s) (Ai : at_instruction (ar s))
  (Hr : run_one E s = Ok tt s' \/ exists c, run_one E s = Err c s').
Ltac igx := intros x Hx; destruct x; try discriminate Hx; cbn [ig]; try reflexivity.
Ltac sweeps := first [vm_compute; reflexivity | intros _; vm_compute; reflexivity | intros K; vm_compute in K; discriminate K].
Lemma sreg_keep {Y} (f : arch -> Y) c : (forall v a, f (a_es v a) = f a) -> (forall v a, f (a_cs v a) = f a) -> (forall v a, f (a_ss v a) = f a) -> (forall v a, f (a_ds v a) = f a) -> (forall v a, f (a_fs v a) = f a) -> (forall v a, f (a_gs v a) = f a) ->
  forall v a a', sreg_set c v a = Some a' -> f a' = f a.
Proof. intros H0 H1 H2 H3 H4 H5 v a a'. unfold sreg_set. repeat (match goal with |- context [match ?x with _ => _ end] => destruct x end); try discriminate; intros [= <-]; auto. Qed.
Lemma memory_listed : hmem (ar s') = hmem (ar s) \/ opcode2_at (ar s) changes_memory.
Proof.
  apply (run_listed E base hmem (fun e => match e with EM | ECB => true | _ => false end)); auto; try sweeps. igx. apply sreg_keep; reflexivity.
Qed.
Lemma flags_listed : r_flags (ar s') = r_flags (ar s) \/ opcode2_at (ar s) changes_flags.
Proof.
  apply (run_listed E base r_flags (fun e => match e with EF | ECB => true | _ => false end)); auto; try sweeps. igx. apply sreg_keep; reflexivity.
Qed.
Lemma config_listed : config (ar s') = config (ar s) \/ opcode2_at (ar s) (listed ints []).
Proof.
  apply (run_listed E base config (fun e => match e with ECB => true | _ => false end)); auto; try sweeps. igx. apply sreg_keep; reflexivity.
Qed.
Lemma sreg_other c c' v a a' : c' <> c -> sreg_set c' v a = Some a' -> sreg_of c a' = sreg_of c a.
Proof.
  intros N H. assert (Hc : 0 <= c' < 6). { unfold sreg_set in H. destruct c' as [|p|p]; [lia| |discriminate]. destruct p as [p|p|]; try (destruct p as [p|p|]); try discriminate; try lia; destruct p; try discriminate; lia. }
  assert (K : c' = 0 \/ c' = 1 \/ c' = 2 \/ c' = 3 \/ c' = 4 \/ c' = 5) by lia.
  destruct K as [->|[->|[->|[->|[->| ->]]]]]; injection H as <-; unfold sreg_of; destruct c as [|p|p]; try congruence; try reflexivity; repeat (destruct p as [p|p|]; try congruence; try reflexivity).
Qed.
Lemma segment_listed c : 0 <= c < 6 -> sreg_of c (ar s') = sreg_of c (ar s) \/ opcode2_at (ar s) (changes_segment c).
Proof.
  intros Hc. assert (K : c = 0 \/ c = 1 \/ c = 2 \/ c = 3 \/ c = 4 \/ c = 5) by lia.
  assert (HI : forall x, (match x with EV c' => c' =? c | ECB => true | _ => false end) = false -> ig E (sreg_of c) x).
  { igx. intros v a a'. apply sreg_other. lia. }
  destruct K as [->|[->|[->|[->|[->| ->]]]]]; match goal with |- sreg_of ?c _ = _ \/ _ => apply (run_listed E base (sreg_of c) (fun e => match e with EV c' => c' =? c | ECB => true | _ => false end)); auto; sweeps end.
Qed.
Lemma register_listed r : 0 <= r < 8 -> reg32 r (ar s') = reg32 r (ar s) \/ opcode2_at (ar s) (changes_register r).
Proof.
  intros Hc. assert (K : r = 0 \/ r = 1 \/ r = 2 \/ r = 3 \/ r = 4 \/ r = 5 \/ r = 6 \/ r = 7) by lia.
  assert (HI : forall x, (match x with EG => true | ER r' => negb (0 <=? r') || (r' =? r) | ECB => true | _ => false end) = false -> ig E (reg32 r) x).
  { igx. - intros pos w v a H1 H2 H3. unfold reg32. cbn [gprs a_gprs]. apply getf_setf_disjoint; lia. - apply sreg_keep; reflexivity. }
  destruct K as [->|[->|[->|[->|[->|[->|[->| ->]]]]]]]; match goal with |- reg32 ?c _ = _ \/ _ => apply (run_listed E base (reg32 c) (fun e => match e with EG => true | ER r' => negb (0 <=? r') || (r' =? c) | ECB => true | _ => false end)); auto; sweeps end.
Qed.
End Lists.
