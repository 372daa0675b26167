(** Every opcode handler preserves the invariant of PKeep, with the permissions its opcode needs. *)
From Verif Require Import Base Cpu Alu Ops Machine Spec PBase PMem PRun PAlu PExec PKeep.

(** ** What each handler may do *)
(** Handlers that may set IP or bDontChangeIP. *)
Definition op_ctl (o : opid) : bool :=
  match o with
  | OUnaryMX | OCallN | OCallF | ORetN | ORetF | ORetiN | ORetiF | OInt3 | OIntI | OInto | OIret
  | OJccS _ | OJccN _ | OJcxz | OLoopnz | OLoopz | OLoop | OJmpN | OJmpF | OJmpS => true
  | _ => false
  end.
(** Handlers that may set CS. *)
Definition op_cs (o : opid) : bool :=
  match o with
  | OUnaryMX | OCallF | ORetF | ORetiF | OInt3 | OIntI | OInto | OIret | OJmpF | OMovSR => true
  | _ => false
  end.
(** Handlers that access ports. *)
Definition op_io (o : opid) : bool :=
  match o with
  | OInADx | OInADxX | OInAI | OInAIX | OOutDxA | OOutDxAX | OOutAI | OOutAIX
  | OStr INS _ | OStr OUTS _ => true
  | _ => false
  end.
(** Handlers that may call a host callback. *)
Definition op_cb (o : opid) : bool := match o with OInt3 | OIntI | OInto => true | _ => false end.
(** Handlers with a ModR/M operand decoded to a host pointer. *)
Definition op_rm (o : opid) : bool :=
  match o with
  | OAlu _ (F_RM | F_RMX | F_MR | F_MRX)
  | OArithMI | OArithMIX | OArithMI8X | OMiscMI | OMiscMIX | OImulMI8X | OImulMIX | OImulRMX
  | OShiftMI | OShiftMI8X | OShiftM1 | OShiftM1X | OShiftMCl | OShiftMClX
  | OShrdI8 | OShrdCl | OShldI8 | OShldCl | OUnaryM | OUnaryMX | OBsf | OBtx
  | OMovMR | OMovMRX | OMovRM | OMovRMX | OMovMI | OMovMIX | OMovRS | OMovSR | OMovZ | OMovZX
  | OXchgRM | OXchgRMX | OPopMX => true
  | _ => false
  end.
(** Handlers that may raise a divide error. *)
Definition op_div (o : opid) : bool := match o with OMiscMI | OMiscMIX | OAam => true | _ => false end.
(** The kinds of undefined behaviour a handler can run into. *)
Definition op_ub (o : opid) (r : ub) : bool :=
  match r with
  | UbMapIndex | UbDeref => op_rm o
  | UbShift => match o with
               | OShiftMI | OShiftMI8X | OShiftM1 | OShiftM1X | OShiftMCl | OShiftMClX
               | OShrdI8 | OShrdCl | OShldI8 | OShldCl => true | _ => false end
  | UbMulOverflow => match o with OImulMI8X | OImulMIX | OImulRMX => true | _ => false end
  | UbDivOverflow => match o with OMiscMIX => true | _ => false end
  | UbSegReg => match o with OMovRS | OMovSR => true | _ => false end
  | UbCpuType => match o with OPopF => true | _ => false end
  | UbUninit | UbCount => false
  end.
(** Bytes after the opcode: at most this many. *)
Definition op_len (o : opid) : Z :=
  match o with
  | OJccN _ | OPushSeg | OPopSeg | OShldI8 | OShldCl | OShrdI8 | OShrdCl | OImulRMX | OLxs _ | OMovZ | OMovZX
  | OBtx | OBsf => 7
  | _ => 10
  end.
Definition is_prefix (o : opid) : bool :=
  match o with OOvrSeg | OOvrOpSize | OOvrAddrSize | ORep | ORepnz => true | _ => false end.
(** Restrictions on the parameter that the opcode tables respect. *)
Definition arg_ok (o : opid) (p : Z) : Prop :=
  0 <= p < 8 /\
  match o with
  | OPushSeg | OOvrSeg => p < 6
  | OPopSeg => p < 6 /\ p <> 1
  | OLxs sr => 0 <= sr < 6 /\ sr <> 1
  | _ => True
  end.

Lemma w16_32 w : w = 16 \/ w = 32 -> width w. Proof. intros [->| ->]; [apply width16|apply width32]. Qed.
Lemma ranged_nn w x : inrange w x -> 0 <= x. Proof. intros H. apply H. Qed.

Section Keep.
Context (E : env) (P : perm) (s0 : st).
Context (Hmem : (exists base, flat E base (ar s0)) \/ (pm_ub P UbDeref /\ pm_ub P UbUninit)).
Ltac kside := first [ assumption | lia | apply w16_32; assumption | apply width8 | apply width16 | apply width32
  | (match goal with H : memperm _ |- _ => apply H end)
  | (unfold R_AX, R_CX, R_DX, R_BX, R_SP, R_BP, R_SI, R_DI in *; lia)
  | (match goal with H : rm_okp _ _ |- _ => apply H end)
  | (match goal with H : modrm_ok _ |- _ => apply H end)
  | (apply regB_ok; kside0) | (apply regW_ok; kside0)
  | (intros ? []; assumption)
  | exact Logic.I
  | auto with fl ]
with kside0 := first [assumption | lia | (match goal with H : modrm_ok _ |- _ => apply H end)].

Ltac kprim := first
  [ apply keeps_ret; [solve [kside]|solve [kside|auto]]
  | apply keeps_err; unfold E_INVAL, E_BADMEM, E_UNDEF, E_DIVERR, E_BUG, E_BREAK, E_HALT; (split; [lia|intro; first [assumption|lia]])
  | apply keeps_undef; solve [kside]
  | apply (keeps_opw P s0)
  | apply (keeps_getflags P s0)
  | apply keeps_set_flags; solve [kside]
  | apply keeps_upd_flags; intros; solve [kside]
  | eapply keeps_load; solve [kside]
  | apply keeps_store; solve [kside]
  | eapply keeps_rd; solve [kside]
  | eapply keeps_wr; solve [kside]
  | eapply keeps_parse8; solve [kside]
  | eapply keeps_parsex; solve [kside]
  | eapply keeps_fetch8; solve [kside]
  | eapply keeps_fetch16; solve [kside]
  | eapply keeps_fetch32; solve [kside]
  | eapply keeps_fetch8s; solve [kside]
  | eapply keeps_fetch; solve [kside]
  | eapply keeps_get_modrm; solve [kside]
  | eapply keeps_nocheck; solve [kside]
  | eapply keeps_get_mmm; solve [kside]
  | eapply keeps_decode_modm; solve [kside]
  | eapply keeps_decode_modmx; solve [kside]
  | eapply keeps_data_seg; solve [kside]
  | eapply keeps_peek8; solve [kside]
  | eapply keeps_pop; solve [kside]
  | eapply keeps_set_ip; solve [kside]
  | eapply keeps_set_cs; solve [kside]
  | eapply keeps_dont; solve [kside]
  | eapply keeps_io_in; solve [kside]
  | eapply keeps_io_out; solve [kside]
  | eapply keeps_hle; solve [kside]
  | apply (keeps_getW P s0) | apply (keeps_getDw P s0)
  | apply keeps_setW; solve [kside]
  | apply keeps_setDw; solve [kside]
  | apply keeps_get_gpr; solve [kside]
  | apply keeps_set_gpr; solve [kside]
  | apply keeps_rep0
  | apply keeps_seg; solve [kside]
  | apply keeps_getD_any
  | apply keeps_getA_any
  | apply keeps_getseg; solve [kside | left; kside | right; kside]
  | apply keeps_chkseg; solve [kside | left; kside | right; kside]
  | apply keeps_setseg; solve [kside | left; kside | right; kside]
  ].
Ltac kgo :=
  lazymatch goal with
  | |- keeps _ _ _ _ (bind (if ?b then _ else _) _) =>
      eapply (keeps_bind _ _ 0) with (Q := any); [destruct b eqn:?; kgo | intros ? _; kgo]
  | |- keeps _ _ _ _ (bind (push _ _) _) => eapply keeps_bind; [eapply keeps_push; [assumption|kgo] | intros ? _; kgo]
  | |- keeps _ _ _ _ (push _ _) => eapply keeps_weak; [eapply keeps_push; [assumption|kgo]|lia|intros; exact Logic.I]
  | |- keeps _ _ _ _ (bind _ _) => eapply keeps_bind; [kprim | intros; cbn beta in *; kgo]
  | |- keeps _ _ _ _ (let _ := _ in _) => cbv zeta; kgo
  | |- keeps _ _ _ _ (ret _) => kprim
  | |- keeps _ _ _ _ (err _) => kprim
  | |- keeps _ _ _ _ (undef _) => kprim
  | |- keeps _ _ _ _ (if ?b then _ else _) => destruct b eqn:?; kgo
  | |- _ => eapply keeps_weak; [kprim | lia | intros; solve [exact Logic.I | assumption]]
  end.

Notation K := (keeps P s0).
Lemma k_alu_vals op w dst d s : width w -> pm_ub P UbDeref \/ (exists pos, dst = PGpr pos) -> ptr_ok s0 dst ->
  K 0 any (alu_vals op w dst d s).
Proof.
  intros Hw Hu Hd. unfold alu_vals. eapply keeps_bind; [apply (keeps_getflags P s0)|]. intros f Hf.
  pose proof (fl_alu op w d s f Hf) as Hf'. destruct (alu op w d s f) as [v f']. cbn [snd] in Hf'.
  eapply keeps_bind; [kprim|]. intros _ _. destruct (alu_writes op); [|kgo].
  destruct Hu as [Hu|[pos ->]].
  - kgo.
  - cbn in Hd. apply keeps_store_r; auto; lia.
Qed.
Lemma k_alu2 op w dst src : width w -> memperm P -> ptr_ok s0 dst -> ptr_ok s0 src -> K 0 any (alu2 op w dst src).
Proof.
  intros Hw Hp Hd Hs. unfold alu2. eapply keeps_bind; [kprim|]. intros. eapply keeps_bind; [kprim|]. intros.
  apply k_alu_vals; auto. left. apply Hp.
Qed.
Lemma k_alu2i op w dst i : width w -> memperm P -> ptr_ok s0 dst -> K 0 any (alu2i op w dst i).
Proof.
  intros Hw Hp Hd. unfold alu2i. eapply keeps_bind; [kprim|]. intros. apply k_alu_vals; auto. left. apply Hp.
Qed.
Lemma k_alu2i_r op w pos i : width w -> 0 <= pos -> pos + 32 <= 256 -> K 0 any (alu2i op w (PGpr pos) i).
Proof.
  intros Hw H1 H2. unfold alu2i. cbn [load]. eapply keeps_bind; [apply keeps_get_gpr; apply wpos, Hw|]. intros.
  apply k_alu_vals; auto; [right; eauto|cbn; lia].
Qed.
Lemma k_alu1 g w dst : (forall d f, inrange 16 f -> inrange 16 (snd (g w d f))) -> width w -> memperm P -> ptr_ok s0 dst ->
  K 0 any (alu1 g w dst).
Proof.
  intros Hg Hw Hp Hd. unfold alu1. eapply keeps_bind; [kprim|]. intros d _. eapply keeps_bind; [kprim|]. intros f Hf.
  specialize (Hg d f Hf). destruct (g w d f) as [v f']. cbn [snd] in Hg. kgo.
Qed.
Lemma k_alu1_r g w pos : (forall d f, inrange 16 f -> inrange 16 (snd (g w d f))) -> width w -> 0 <= pos -> pos + 32 <= 256 ->
  K 0 any (alu1 g w (PGpr pos)).
Proof.
  intros Hg Hw H1 H2. unfold alu1. cbn [load]. eapply keeps_bind; [apply keeps_get_gpr; apply wpos, Hw|]. intros d _.
  eapply keeps_bind; [kprim|]. intros f Hf.
  specialize (Hg d f Hf). destruct (g w d f) as [v f']. cbn [snd] in Hg. eapply keeps_bind; [kprim|]. intros.
  eapply keeps_weak; [apply keeps_store_r; auto|lia|auto].
Qed.
Ltac kw H := eapply keeps_weak; [apply H|lia|intros; exact Logic.I].

Lemma k_alu op f : (op_rm (OAlu op f) = true -> memperm P) -> K 10 any (x_alu E op f).
Proof.
  intros Hp. destruct f; cbn [op_rm] in Hp; try specialize (Hp eq_refl); unfold x_alu.
  - eapply keeps_bind; [kprim|]. intros rm [H1 H2]. kw k_alu2; auto using width8.
  - eapply keeps_bind; [kprim|]. intros rm [H1 H2]. eapply keeps_bind; [kprim|]. intros. kw k_alu2; auto using w16_32.
  - eapply keeps_bind; [kprim|]. intros rm [H1 H2]. kw k_alu2; auto using width8.
  - eapply keeps_bind; [kprim|]. intros rm [H1 H2]. eapply keeps_bind; [kprim|]. intros. kw k_alu2; auto using w16_32.
  - eapply keeps_bind; [kprim|]. intros. unfold regB. cbn. kw k_alu2i_r; auto using width8; lia.
  - eapply keeps_bind; [kprim|]. cbn beta. intros w Hw. eapply keeps_bind; [kprim|]. intros. unfold regW.
    eapply keeps_weak; [apply k_alu2i_r; auto using w16_32; lia| |auto]. destruct Hw as [->| ->]; cbn; lia.
Qed.
Lemma k_arith_mi p : memperm P -> K 10 any (x_arith_mi E p).
Proof.
  intros Hp. unfold x_arith_mi. eapply keeps_bind; [kprim|]. intros rm [H1 H2]. eapply keeps_bind; [kprim|]. intros.
  kw k_alu2i; auto using width8.
Qed.
Lemma k_arith_mix p : memperm P -> K 10 any (x_arith_mix E p).
Proof.
  intros Hp. unfold x_arith_mix. eapply keeps_bind; [kprim|]. intros rm [H1 H2]. do 3 (eapply keeps_bind; [kprim|]; intros ? ?).
  cbn beta in *. eapply keeps_bind; [kprim|]. intros.
  eapply keeps_weak; [apply k_alu2i; auto using w16_32; lia| |auto].
  match goal with H : _ = 16 \/ _ = 32 |- _ => destruct H as [->| ->]; cbn; lia end.
Qed.
Lemma k_arith_mi8x p : memperm P -> K 10 any (x_arith_mi8x E p).
Proof.
  intros Hp. unfold x_arith_mi8x. eapply keeps_bind; [kprim|]. intros rm [H1 H2]. do 4 (eapply keeps_bind; [kprim|]; intros ? ?).
  cbn beta in *. kw k_alu2i; auto using w16_32.
Qed.
Lemma k_mul w src : width w -> memperm P -> ptr_ok s0 src -> K 0 any (mul_body w src).
Proof.
  intros Hw Hp Hq. unfold mul_body. assert (0 <= w <= 32) by (destruct Hw as [->|[->| ->]]; lia).
  assert (A : forall r, K 0 any (set_gpr 64 w (r / 2 ^ w) ;;; set_gpr 0 w r)) by (intros; kgo).
  kgo.
Qed.
Lemma k_imul w src : width w -> memperm P -> ptr_ok s0 src -> K 0 any (imul_body w src).
Proof.
  intros Hw Hp Hq. unfold imul_body. assert (0 <= w <= 32) by (destruct Hw as [->|[->| ->]]; lia).
  assert (A : forall r, K 0 any (set_gpr 64 w (r / 2 ^ w) ;;; set_gpr 0 w r)) by (intros; kgo).
  kgo.
Qed.
Lemma k_div w src : pm_div P = true -> width w -> memperm P -> ptr_ok s0 src -> K 0 any (div_body w src).
Proof.
  intros Hdv Hw Hp Hq. unfold div_body, setH, setL, getH, getL. assert (0 <= w <= 32) by (destruct Hw as [->|[->| ->]]; lia). kgo.
Qed.
Lemma k_idiv w src : pm_div P = true -> width w -> memperm P -> (w <> 8 -> pm_ub P UbDivOverflow) -> ptr_ok s0 src -> K 0 any (idiv_body w src).
Proof.
  intros Hdv Hw Hp Hu Hq. unfold idiv_body, setH, setL, getH, getL. assert (0 <= w <= 32) by (destruct Hw as [->|[->| ->]]; lia).
  destruct (Z.eqb_spec w 8).
  - kgo.
  - specialize (Hu n). kgo.
Qed.
Lemma k_misc p w q : pm_div P = true -> width w -> memperm P -> (w <> 8 -> pm_ub P UbDivOverflow) -> ptr_ok s0 q ->
  K (w / 8) any (misc_select E p w q).
Proof.
  intros Hdv Hw Hp Hu Hq. unfold misc_select. assert (0 <= w / 8) by (destruct (width_div w Hw); lia).
  destruct p as [|[[[]|[]|]|[[]|[]|]|]|];
    try (apply keeps_err; unfold E_UNDEF; lia).
  - eapply keeps_bind; [kprim|]. intros. eapply keeps_bind; [kprim|]. intros. eapply keeps_weak; [apply k_alu_vals; auto|lia|auto]. left; apply Hp.
  - kw k_idiv; auto.
  - kw k_imul; auto.
  - kw k_alu1; auto. intros. apply fl_neg. auto.
  - kw k_div; auto.
  - kw k_mul; auto.
  - kgo.
Qed.
Lemma k_misc_mi p : pm_div P = true -> memperm P -> K 10 any (x_misc_mi E p).
Proof.
  intros Hdv Hp. unfold x_misc_mi. eapply keeps_bind; [kprim|]. intros rm [H1 H2].
  eapply keeps_weak; [apply k_misc; auto using width8; lia|cbn; lia|auto].
Qed.
Lemma k_misc_mix p : pm_div P = true -> memperm P -> pm_ub P UbDivOverflow -> K 10 any (x_misc_mix E p).
Proof.
  intros Hdv Hp Hu. unfold x_misc_mix. eapply keeps_bind; [kprim|]. intros rm [H1 H2]. eapply keeps_bind; [kprim|]. cbn beta. intros w Hw.
  eapply keeps_weak; [apply k_misc; auto using w16_32| |auto]. destruct Hw as [->| ->]; cbn; lia.
Qed.
Lemma k_imul2 q a b : memperm P -> pm_ub P UbMulOverflow -> ptr_ok s0 q -> K 0 any (imul2 q a b).
Proof. intros Hp Hu Hq. unfold imul2. kgo. Qed.
Lemma k_imuls : memperm P -> pm_ub P UbMulOverflow ->
  K 10 any (x_imul_mi8x E) /\ K 10 any (x_imul_mix E) /\ K 7 any (x_imul_rmx E).
Proof.
  intros Hp Hu. split; [|split]; unfold x_imul_mi8x, x_imul_mix, x_imul_rmx;
  (eapply keeps_bind; [kprim|]; intros o _; destruct o; [kgo|]); (eapply keeps_bind; [kprim|]; intros rm [H1 H2]).
  - do 2 (eapply keeps_bind; [kprim|]; intros ? ?). kw k_imul2; auto.
  - do 2 (eapply keeps_bind; [kprim|]; intros ? ?). kw k_imul2; auto.
  - do 2 (eapply keeps_bind; [kprim|]; intros ? ?). kw k_imul2; auto.
Qed.
Lemma k_shift op w q c : width w -> memperm P -> pm_ub P UbShift -> ptr_ok s0 q -> K 0 any (do_shift op w q c).
Proof.
  intros Hw Hp Hu Hq. unfold do_shift. cbv zeta. destruct (_ =? 0); [kgo|]. eapply keeps_bind; [kprim|]. intros d _.
  eapply keeps_bind; [kprim|]. intros f Hf. destruct (sh_apply op w d (sh_amount op w c) f) as [[v f']|] eqn:Hs; [|kgo].
  apply fl_shift in Hs; auto. kgo.
Qed.
Lemma k_shifts p : memperm P -> pm_ub P UbShift ->
  K 10 any (x_shift_mi E p) /\ K 10 any (x_shift_mi8x E p) /\ K 10 any (x_shift_m1 E p) /\ K 10 any (x_shift_m1x E p) /\
  K 10 any (x_shift_mcl E p) /\ K 10 any (x_shift_mclx E p).
Proof.
  intros Hp Hu. unfold x_shift_mi, x_shift_mi8x, x_shift_m1, x_shift_m1x, x_shift_mcl, x_shift_mclx, getL.
  assert (A : forall w q c n, 0 <= n -> width w -> ptr_ok s0 q -> K n any (do_shift p w q c)).
  { intros. eapply keeps_weak; [apply k_shift; auto|lia|auto]. }
  split; [|split; [|split; [|split; [|split]]]];
  repeat (eapply keeps_bind; [kprim|]; cbn beta; intros); apply A; try lia; try kside.
Qed.
Lemma k_dbl left w dst src c : width w -> memperm P -> pm_ub P UbShift -> ptr_ok s0 dst -> ptr_ok s0 src ->
  K 0 any (do_dbl left w dst src c).
Proof.
  intros Hw Hp Hu Hd Hs. unfold do_dbl. destruct (c =? 0); [kgo|]. destruct (sh_dbl_bad w c); [kgo|].
  eapply keeps_bind; [kprim|]. intros d _. eapply keeps_bind; [kprim|]. intros f Hf.
  do 7 (eapply keeps_bind; [kprim|]; intros ? ?). cbv zeta.
  match goal with |- keeps _ _ _ _ (set_flags ?x) => eapply keeps_weak; [apply keeps_set_flags|lia|auto] end.
  apply fl_set_comm. destruct (c =? 1); auto with fl.
Qed.
Lemma k_dbls left : memperm P -> pm_ub P UbShift -> K 7 any (x_dbl_i8 E left) /\ K 7 any (x_dbl_cl E left).
Proof.
  intros Hp Hu. unfold x_dbl_i8, x_dbl_cl, getL.
  split; (eapply keeps_bind; [kprim|]; intros rm [H1 H2]); repeat (eapply keeps_bind; [kprim|]; cbn beta; intros);
  kw k_dbl; auto using w16_32.
Qed.
Lemma k_unary_m p : memperm P -> K 10 any (x_unary_m E p).
Proof.
  intros Hp. unfold x_unary_m.
  destruct p as [|[]|]; try (apply keeps_err; unfold E_UNDEF; lia);
    (eapply keeps_bind; [kprim|]; intros rm [H1 H2]); kw k_alu1; auto using width8, fl_inc, fl_dec.
Qed.
Lemma k_farptr : K 6 any (parse_farptr E).
Proof. unfold parse_farptr. kgo. Qed.
Lemma k_next_ip : K 0 any next_ip. Proof. unfold next_ip. kgo. Qed.
Ltac kpush0 := lazymatch goal with |- keeps _ _ _ _ (push _ ?v) =>
  apply (keeps_push E P s0 Hmem v); first [apply k_next_ip | kgo] end.
Ltac kpush := lazymatch goal with |- keeps _ _ _ _ (push _ ?v) =>
  eapply keeps_weak; [apply (keeps_push E P s0 Hmem v); first [apply k_next_ip | kgo]|lia|intros; exact Logic.I] end.
Lemma k_unary_mx p : memperm P -> pm_ctl P = true -> pm_cs P = true -> K 10 any (x_unary_mx E p).
Proof.
  intros Hp Hc Hcs. unfold x_unary_mx. eapply keeps_bind; [kprim|]. intros o _.
  destruct o; destruct p as [|[[[]|[]|]|[[]|[]|]|]|]; try (apply keeps_err; unfold E_UNDEF; lia).
  all: try (eapply keeps_bind; [kprim|]; intros rm [H1 H2]).
  all: try (eapply keeps_bind; [apply k_farptr|]; intros ci _).
  all: try (eapply keeps_weak; [apply k_alu1; auto using width16, width32, fl_inc, fl_dec|lia|intros; exact Logic.I]).
  all: repeat first [ kpush | (eapply keeps_bind; [first [kpush0 | kprim]|]; cbn beta; intros) | kgo ].
Qed.

Ltac kb := lazymatch goal with |- keeps _ _ _ _ (bind _ _) =>
  eapply keeps_bind; [first [kpush0 | kprim]|]; cbn beta; intros end.
Ltac kend := first [kpush | kgo].
Ltac kall := repeat first [kb | kend].
Lemma k_calls : pm_ctl P = true -> K 10 any (x_call_n E) /\ K 10 any (x_ret_n E) /\ K 10 any (x_ret_in E).
Proof. intros Hc. split; [|split]; unfold x_call_n, x_ret_n, x_ret_in; kall. Qed.
Lemma k_fcalls : pm_ctl P = true -> pm_cs P = true -> K 10 any (x_call_f E) /\ K 10 any (x_ret_f E) /\ K 10 any (x_ret_if E) /\ K 10 any (x_jmp_f E).
Proof. intros Hc Hcs. split; [|split; [|split]]; unfold x_call_f, x_ret_f, x_ret_if, x_jmp_f; kall. Qed.
Lemma k_enter_loop n : K 0 any (enter_loop E n).
Proof.
  induction n as [|n IH]; cbn [enter_loop]; [kgo|]. kb. destruct x; [kgo|]. kb. kb. kb. kb. kb. kb.
  eapply keeps_weak; [exact IH|lia|auto].
Qed.
Lemma k_enter : K 10 any (x_enter E).
Proof.
  unfold x_enter. kb. kb. cbv zeta. kb. kb.
  eapply (keeps_bind _ _ 0) with (Q := any).
  - destruct (1 <? _); [|kgo]. eapply keeps_bind; [apply k_enter_loop|]. intros. kb. destruct x4; [kgo|kend].
  - intros. kall.
Qed.
Lemma k_leave : K 10 any (x_leave E).
Proof. unfold x_leave. kall. Qed.
Lemma k_interrupt n : pm_ctl P = true -> pm_cs P = true -> cb_ok E P s0 -> K 0 any (call_interrupt E n).
Proof.
  intros Hc Hcs Hcb. unfold call_interrupt. assert (inrange 16 0) by (apply fl_const; reflexivity).
  kb. kb. destruct (_ && _); [kgo|]. destruct (_ && _); [kgo|]. kall.
Qed.
Lemma k_ints : pm_ctl P = true -> pm_cs P = true -> cb_ok E P s0 ->
  K 10 any (call_interrupt E 3) /\ K 10 any (x_int_i E) /\ K 10 any (x_into E).
Proof.
  intros Hc Hcs Hcb. split; [|split]; unfold x_int_i, x_into.
  - kw k_interrupt; auto.
  - kb. kw k_interrupt; auto.
  - kb. destruct (ftest _ _); [kw k_interrupt; auto|kgo].
Qed.
Lemma k_iret : pm_ctl P = true -> pm_cs P = true -> K 10 any (x_iret E).
Proof.
  intros Hc Hcs. unfold x_iret. do 4 kb. kb.
  eapply keeps_bind; [apply keeps_set_flags; apply wrap_range; lia|]. intros. kend.
Qed.
Lemma k_flag o : K 10 any (x_flag o).
Proof.
  destruct o; unfold x_flag, getH, setH; kall.
Qed.
Lemma k_io : pm_io P = true ->
  K 10 any (x_in_adx E) /\ K 10 any (x_in_adxx E) /\ K 10 any (x_in_ai E) /\ K 10 any (x_in_aix E) /\
  K 10 any x_out_dxa /\ K 10 any x_out_dxax /\ K 10 any (x_out_ai E) /\ K 10 any (x_out_aix E).
Proof.
  intros Hio. unfold x_in_adx, x_in_adxx, x_in_ai, x_in_aix, x_out_dxa, x_out_dxax, x_out_ai, x_out_aix, setL, getL.
  split; [|split; [|split; [|split; [|split; [|split; [|split]]]]]]; kall.
Qed.
Lemma k_jump_if b d : pm_ctl P = true -> K 0 any (jump_if b d).
Proof. intros Hc. unfold jump_if. kall. Qed.
Lemma k_jumps : pm_ctl P = true ->
  (forall c, K 7 any (x_jcc_s E c)) /\ (forall c, K 7 any (x_jcc_n E c)) /\ K 7 any (x_jcxz E) /\ (forall g, K 7 any (loop_with E g)) /\
  K 7 any (x_jmp_n E) /\ K 7 any (x_jmp_s E).
Proof.
  intros Hc. unfold x_jcc_s, x_jcc_n, x_jcxz, loop_with, x_jmp_n, x_jmp_s.
  assert (A : forall n b d, 0 <= n -> K n any (jump_if b d)).
  { intros. eapply keeps_weak; [apply k_jump_if; auto|lia|auto]. }
  split; [|split; [|split; [|split; [|split]]]]; intros; repeat kb; apply A; lia.
Qed.
Lemma k_misc1 : K 10 any x_cbw /\ (pm_div P = true -> K 10 any (x_aam E)) /\ K 10 any (x_aad E) /\ K 10 any x_cwd /\ K 10 any (x_xlat E).
Proof.
  unfold x_cbw, x_aam, x_aad, x_cwd, x_xlat, getL, setL, getH, setH.
  split; [|split; [|split; [|split]]]; [|intros Hdv| | |]; kall.
Qed.
Lemma k_bsf : memperm P -> K 7 any (x_bsf E).
Proof. intros Hp. unfold x_bsf. kall. Qed.
Lemma k_aaas g : (forall al ah f, inrange 16 f -> inrange 16 (snd (g al ah f))) -> K 10 any (x_aaas g).
Proof.
  intros Hg. unfold x_aaas, getL, getH, setL, setH. kb. kb. kb. specialize (Hg x x0 x1 ltac:(auto)).
  destruct (g x x0 x1) as [[al ah] f]. cbn [snd] in Hg. kall.
Qed.
Lemma k_daas g : (forall al f, inrange 16 f -> inrange 16 (snd (g al f))) -> K 10 any (x_daas g).
Proof.
  intros Hg. unfold x_daas, getL, setL. kb. kb. specialize (Hg x x0 ltac:(auto)).
  destruct (g x x0) as [al f]. cbn [snd] in Hg. kall.
Qed.
Lemma k_store_reg n w r v : 0 <= n -> w = 16 \/ w = 32 -> 0 <= r < 8 -> K n any (store w (regW r) v).
Proof.
  intros Hn Hw Hr. unfold regW. eapply keeps_weak; [apply keeps_store_r; [apply w16_32, Hw|lia|lia]|lia|auto].
Qed.
Lemma k_lxs sr : 0 <= sr < 6 -> sr <> 1 -> K 7 any (x_lxs E sr).
Proof.
  intros H1 H2. unfold x_lxs. kb. destruct (_ =? 3); [kgo|]. kb. kb. kb.
  eapply keeps_bind; [apply (k_store_reg 0); [lia|auto|apply H]|]. intros. kall.
Qed.
Lemma k_lea : K 10 any (x_lea E).
Proof.
  unfold x_lea. kb. destruct (_ =? 3); [kgo|]. kb. kb. apply k_store_reg; [lia|auto|apply H].
Qed.
Lemma k_btx p : memperm P -> K 7 any (x_btx E p).
Proof.
  intros Hp. unfold x_btx. destruct (p <? 4); [kgo|]. kb. kb. kb. kb. cbv zeta.
  eapply keeps_bind; [apply keeps_upd_flags; intros; destruct (Z.testbit _ _); auto with fl|]. intros.
  assert (A : forall v, K (7 - 6 - 1 - 0 - 0 - 0) any (store x1 (snd x) v)) by (intros; kgo).
  destruct p as [|[[[]|[]|]|[[]|[]|]|]|]; first [apply A | kgo].
Qed.
Lemma k_copy w d s : width w -> memperm P -> ptr_ok s0 d -> ptr_ok s0 s -> K 0 any (copy w d s).
Proof. intros. unfold copy. kall. Qed.
Lemma k_movs : memperm P -> K 10 any (x_mov_mr E) /\ K 10 any (x_mov_mrx E) /\ K 10 any (x_mov_rm E) /\ K 10 any (x_mov_rmx E) /\
  K 10 any (x_mov_mi E) /\ K 10 any (x_mov_mix E).
Proof.
  intros Hp. unfold x_mov_mr, x_mov_mrx, x_mov_rm, x_mov_rmx, x_mov_mi, x_mov_mix.
  assert (A : forall n w d s, 0 <= n -> width w -> ptr_ok s0 d -> ptr_ok s0 s -> K n any (copy w d s)).
  { intros. eapply keeps_weak; [apply k_copy; auto|lia|auto]. }
  split; [|split; [|split; [|split; [|split]]]]; kb; try (kb); try (apply A; [lia|kside..]; fail).
  - kgo.
  - kb. eapply keeps_weak; [apply keeps_store; kside| |auto]. destruct H0 as [->| ->]; cbn; lia.
Qed.
Lemma k_moffs : K 4 (fun so => inrange 16 (fst so)) (moffs E).
Proof.
  unfold moffs. kb. kb. eapply (keeps_bind _ _ 4) with (Q := any).
  - destruct x0; [eapply keeps_weak; [apply keeps_fetch; [assumption|apply width32]|cbn; lia|intros; exact Logic.I]
                 |eapply keeps_weak; [apply keeps_fetch; [assumption|apply width16]|cbn; lia|intros; exact Logic.I]].
  - intros. apply keeps_ret; [lia|exact H].
Qed.
Lemma k_movos : K 10 any (x_mov_amo E) /\ K 10 any (x_mov_amox E) /\ K 10 any (x_mov_moa E) /\ K 10 any (x_mov_moax E).
Proof.
  unfold x_mov_amo, x_mov_amox, x_mov_moa, x_mov_moax, setL, getL.
  split; [|split; [|split]]; (eapply keeps_bind; [apply k_moffs|]); cbn beta; intros; kall.
Qed.
Lemma k_mov_rs : memperm P -> pm_ub P UbSegReg -> K 10 any (x_mov_rs E).
Proof. intros Hp Hu. unfold x_mov_rs. kb. destruct x; [kgo|]. kall. Qed.
Lemma k_mov_sr : memperm P -> pm_ub P UbSegReg -> pm_cs P = true -> K 10 any (x_mov_sr E).
Proof. intros Hp Hu Hc. unfold x_mov_sr. kb. destruct x; [kgo|]. kall. Qed.
Lemma k_mov_regb p : 0 <= p < 8 -> K 10 any (x_mov_regb E p).
Proof.
  intros Hp. unfold x_mov_regb. kb. pose proof (regB_ok s0 p Hp) as H1. unfold regB in *.
  eapply keeps_weak; [apply keeps_store_r; [apply width8|apply H1|apply H1]|lia|auto].
Qed.
Lemma k_mov_reg p : 0 <= p < 8 -> K 10 any (x_mov_reg E p).
Proof. intros Hp. unfold x_mov_reg. kb. kb. apply k_store_reg; auto. destruct H as [->| ->]; cbn; lia. Qed.
Lemma k_movz : memperm P -> K 7 any (x_mov_z E) /\ K 7 any (x_mov_zx E).
Proof.
  intros Hp. unfold x_mov_z, x_mov_zx. split; kb; kb; kb; kb; apply k_store_reg; try lia; auto; apply H.
Qed.
Lemma k_xchg w a b : width w -> memperm P -> ptr_ok s0 a -> ptr_ok s0 b -> K 0 any (xchg w a b).
Proof. intros. unfold xchg. kall. Qed.
Lemma k_xchgs : memperm P -> K 10 any (x_xchg_rm E) /\ K 10 any (x_xchg_rmx E).
Proof.
  intros Hp. unfold x_xchg_rm, x_xchg_rmx.
  assert (A : forall n w d s, 0 <= n -> width w -> ptr_ok s0 d -> ptr_ok s0 s -> K n any (xchg w d s)).
  { intros. eapply keeps_weak; [apply k_xchg; auto|lia|auto]. }
  split; repeat kb; apply A; try lia; try kside.
Qed.
Lemma k_xchg_reg p : 0 <= p < 8 -> K 10 any (x_xchg_reg p).
Proof.
  intros Hp. unfold x_xchg_reg. destruct (p =? 0); [kgo|]. kb. unfold xchg, regW. cbn [load].
  assert (Hw : 0 <= x <= 32) by lia. kb. kb.
  eapply keeps_bind; [apply (k_store_reg 0); [lia|auto|lia]|]. intros. apply (k_store_reg _ x p); [lia|auto|lia].
Qed.
Lemma k_segs p : 0 <= p < 6 -> K 7 any (x_push_seg E p) /\ (p <> 1 -> K 7 any (x_pop_seg E p)).
Proof.
  intros Hp. unfold x_push_seg, x_pop_seg. split; [|intros Hn].
  - kb. kend.
  - kb. kb. kgo.
Qed.
Lemma k_push_reg p : 0 <= p < 8 -> K 10 any (x_push_reg E p).
Proof.
  intros Hp. unfold x_push_reg. kb. eapply (keeps_bind _ _ 0) with (Q := any); [destruct x; kend|]. intros. kend.
Qed.
Lemma k_pop_reg p : 0 <= p < 8 -> K 10 any (x_pop_reg E p).
Proof. intros Hp. unfold x_pop_reg. kall. Qed.
Lemma k_pusha : K 10 any (x_pusha E).
Proof. unfold x_pusha. kb. destruct x; [kgo|]. kall. Qed.
Lemma k_pop_to r : 0 <= r < 8 -> K 0 any (pop_to E r).
Proof. intros. unfold pop_to. kall. Qed.
Lemma k_popa : K 10 any (x_popa E).
Proof.
  unfold x_popa. kb. destruct x; [kgo|].
  assert (A : forall n r, 0 <= n -> 0 <= r < 8 -> K n any (pop_to E r)).
  { intros. eapply keeps_weak; [apply k_pop_to; auto|lia|auto]. }
  assert (B : forall r, 0 <= r < 8 -> K 0 any (pop_to E r)) by (intros; apply A; lia).
  do 3 (eapply keeps_bind; [apply B; unfold R_DI, R_SI, R_BP; lia|intros]). kb. kb.
  do 3 (eapply keeps_bind; [apply B; unfold R_BX, R_DX, R_CX; lia|intros]). apply A; unfold R_AX; lia.
Qed.
Lemma k_pushf : K 10 any (x_pushf E).
Proof. unfold x_pushf. kall. Qed.
Lemma k_popf : pm_ub P UbCpuType -> K 10 any (x_popf E).
Proof.
  intros Hu. unfold x_popf. kb. destruct x; [kgo|]. kb. kb. destruct (popf_masks x0) as [[a b]|]; [|kgo].
  eapply keeps_weak; [apply keeps_set_flags; apply wrap_range; lia|lia|auto].
Qed.
Lemma k_popf_cpu : 0 <= cpu (ar s0) <= 2 -> K 10 any (x_popf E).
Proof.
  intros Hu. unfold x_popf. kb. destruct x; [kgo|]. kb.
  eapply keeps_bind; [apply (keeps_getA P s0 cpu (fun c => 0 <= c <= 2)); intros s Hs; rewrite (iv_cpu _ _ _ Hs); exact Hu|].
  cbn beta. intros c Hc. destruct (popf_masks c) as [[a b]|] eqn:Hm.
  - eapply keeps_weak; [apply keeps_set_flags; apply wrap_range; lia|lia|auto].
  - exfalso. assert (c = 0 \/ c = 1 \/ c = 2) as [->|[->| ->]] by lia; discriminate.
Qed.
Lemma k_pop_mx : memperm P -> K 10 any (x_pop_mx E).
Proof. intros Hp. unfold x_pop_mx. kb. destruct x; [kgo|]. kall. Qed.
Lemma k_push_imm v : K 0 any (push_imm E v).
Proof. unfold push_imm. kb. eapply (keeps_bind _ _ 0) with (Q := any); [destruct x; kend|]. intros. kend. Qed.
Lemma k_push_is : K 10 any (x_push_i E) /\ K 10 any (x_push_i8 E).
Proof. unfold x_push_i, x_push_i8. split; kb; kw k_push_imm. Qed.
End Keep.
