(** Every instruction consumes the number of bytes its encoding has: the handlers and the theorem. *)
From Verif Require Import Base Cpu Alu Ops Machine Spec SpecOps SpecLen SpecRun PBase PMem PRun PFrame PAlu PExec PIAlu PIAlu2 PTop3 PStop PLen SpecOps2 SpecSys PStep PIInt PKeep PKeep2 PKeep3 PTop PTop2.

(** ** Each handler consumes the bytes of its layout. *)
Ltac aw1 := first
  [ solve [eauto with adv]
  | apply adv_opw | apply adv_getD_op | apply adv_getD_addr
  | apply adv_bind0; [solve [repeat a0]|intros]
  | apply adv_bind; [solve [eauto with adv]|intros] ].
Ltac aw := eapply adv_eq; [repeat aw1|].
Section Handlers.
Context (E : env) (base : Z) (c : bool) (p : pfx) (A : arch) (off : Z) (t : list Z).
Hypothesis F : flat E base A.
Hypothesis W : wf_regs A.
Hypothesis C : code_from A off t.
Notation osz := (p_os p) (only parsing).
Notation asz := (p_as p) (only parsing).
Notation adv := (adv c osz asz).
Notation hd := (hd c osz asz A off).
Definition size_pre (x : opid) (k : Z) : Prop :=
  match x with
  | OPushI => osz = false
  | OUnaryMX => k = 0 \/ k = 1 \/ k = 6
  | OMiscMI | OMiscMIX => forall m u, t = m :: u -> k = (m / 8) mod 8
  | OMovSR => c = true -> forall m u, t = m :: u -> (m / 8) mod 8 <> 1
  | OPopSeg => c = true -> k <> 1
  | OLxs r => c = true -> r <> 1
  | _ => True
  end.
Ltac ag := cbn [negb andb]; repeat first [aw1 | match goal with |- PLen.adv _ _ _ _ (if ?b then _ else _) => destruct b end].
Lemma adv_upd_flags g : adv 0 (upd_flags g). Proof. unfold upd_flags. ag. Qed.
Lemma adv_moffs : adv (if asz then 4 else 2) (moffs E).
Proof. unfold moffs, data_seg. aw; destruct (p_as p); reflexivity. Qed.
Hint Resolve adv_upd_flags adv_moffs : adv.
Ltac unf := unfold x_alu, x_inc_reg, x_dec_reg, x_in_adx, x_in_adxx, x_in_ai, x_in_aix, x_out_dxa, x_out_dxax, x_out_ai, x_out_aix, x_cbw, x_aam, x_cwd, x_xlat, x_aad, x_mov_amo, x_mov_amox, x_mov_moa, x_mov_moax, x_mov_regb, x_mov_reg, data_seg, x_leave, x_flag, x_pop_seg, x_push_seg, x_push_reg, x_pop_reg, x_pusha, x_popa, x_pushf, x_popf, x_push_i, x_push_i8, push_imm, pop_to, x_xchg_reg, xchg, getL, getH, getW, setL, setH, setW.
Lemma plain_size x k i : op_layout x = Some (Plain i) -> size_pre x k -> adv (imm_size p i) (exec1 E x k).
Proof.
  intros Hl Hp. destruct x; try discriminate Hl; cbn [op_layout] in Hl; try (destruct f; try discriminate Hl); injection Hl as <-; cbn [imm_size exec1].
  all: try (solve [unf; aw; try (destruct (p_os p)); try (destruct (p_as p)); try reflexivity]).
  all: try (solve [unf; ag]).
  - (* ENTER *) unfold x_enter, getW, setW. apply (adv_eq _ _ _ (2 + (1 + 0))); [|reflexivity]. apply adv_bind; [a0|intros]. apply adv_bind; [a0|intros lv]. cbv zeta.
    a0. a0. apply adv_bind0; [|intros; ag]. destruct (1 <? lv mod 32); [|ag]. a0. apply adv_getD_op. destruct (p_os p); a0.
  - (* flags *) match goal with q : flagop |- _ => destruct q end; unf; ag.
  - unfold x_aaas. unf. repeat aw1. destruct (bcd_aaa x x0 x1) as [[? ?] ?]. ag.
  - unfold x_aaas. unf. repeat aw1. destruct (bcd_aas x x0 x1) as [[? ?] ?]. ag.
  - unf. apply (adv_eq _ _ _ (1 + 0)); [|reflexivity]. apply adv_bind; [a0|intros]. destruct (x =? 0); ag.
  - unfold x_daas. unf. repeat aw1. destruct (bcd_daa x x0) as [? ?]. ag.
  - unfold x_daas. unf. repeat aw1. destruct (bcd_das x x0) as [? ?]. ag.
  - unf. repeat aw1. apply adv_setseg. exact Hp.
  - unf. apply adv_getD_op. apply adv_bind0; [destruct (p_os p); ag|intros; ag].
  - unf. apply adv_getD_op. destruct (p_os p); ag. destruct (popf_masks x0) as [[? ?]|]; ag.
  - cbn in Hp. unf. rewrite Hp. apply (adv_eq _ _ _ (2 + 0)); [|reflexivity]. apply adv_bind; [a0|intros]. apply adv_getD_op. cbv iota. ag.
  - unf. apply (adv_eq _ _ _ (1 + 0)); [|reflexivity]. apply adv_bind; [a0|intros]. apply adv_getD_op. apply adv_bind0; [destruct (p_os p); ag|intros; ag].
Qed.
Ltac au := unfold copy, xchg, getL, getH, getW, setL, setH, setW; repeat aw1.
Ltac hp0 H C0 := let b := match type of H with modrm_size _ (?b :: ?u) = Some ?z => b end in let u := match type of H with modrm_size _ (?b :: ?u) = Some ?z => u end in
  let z := match type of H with modrm_size _ (?b :: ?u) = Some ?z => z end in
  first
  [ apply (hd_parse E base c osz asz A off b u z F W C0 H); intros
  | apply (hd_parsex E base c osz asz A off b u z F W C0 H); intros
  | apply (hd_rm E base c osz asz A off b u z F W C0); [first [exact (modm_size E base c osz asz A off b u z F W C0 H)|exact (modmx_size E base c osz asz A off b u z F W C0 H)]|intros]
  | apply (hd_mem E base c osz asz A off b u z F W C0 H); intros
  | apply hd_opw; hp0 H C0 | apply hd_op; hp0 H C0 | apply hd_gpr; intros; hp0 H C0 ].
Ltac hp H := match goal with C0 : code_from _ _ (_ :: _) |- _ => hp0 H C0 end.
Lemma hd_err {X} n e : hd n (err e : M X). Proof. intros s v s' _ H. discriminate. Qed.
Lemma hd_opif {X} n (m1 m2 : M X) : (osz = true -> hd n m1) -> (osz = false -> hd n m2) -> hd n (bind (getD d_op) (fun o => if o then m1 else m2)).
Proof. intros H1 H2. apply hd_op. destruct osz eqn:H in |- * at 2; auto. Qed.
Lemma hd_chk {X} n k (m : M X) : hd n m -> hd n (chkseg k ;;; m).
Proof. intros Hm s v s' Hs H. unfold chkseg, bind in H. destruct sreg_of; [|discriminate]. eapply Hm; eauto. Qed.
Lemma lxs_check b u k s : t = b :: u -> start osz asz A off s -> x_lxs E k s =
  bind (get_modrm E) (fun m => if m_mod m =? 3 then err E_UNDEF else bind (get_mmm E m) (fun so => w <- opw ;; v <- rd E w (fst so) (snd so) ;; store w (regW (m_rrr m)) v ;;;
    sv <- rd E 16 (fst so) (snd so + w / 8) ;; setseg k sv)) s.
Proof.
  intros Ht Hs. 
  assert (K : get_modrm E s = Ok (modrm_of b) (mkSt A (dd_ipoff (off + 1) (dc s)) (dbg s) (icount s) (lastnull s))).
  2:{ unfold x_lxs, get_modrm_nocheck. unfold bind at 1. rewrite K. symmetry. unfold bind at 1. rewrite K. reflexivity. }
  unfold get_modrm. unfold bind at 1. rewrite (start_fetch E base osz asz A off t F W C b u Ht s Hs). reflexivity.
Qed.
Lemma rm_size b u x k i z : t = b :: u -> modrm_size asz t = Some z -> op_layout x = Some (RegMem i) -> size_pre x k -> hd (z + imm_size p i) (exec1 E x k).
Proof.
  intros Ht Hz Hl Hp. pose proof C as C0; rewrite Ht in C0, Hz. destruct x; try discriminate Hl; cbn [op_layout] in Hl; try (destruct f; try discriminate Hl); injection Hl as <-; cbn [imm_size exec1].
  all: try (solve [unfold x_alu, x_arith_mi, x_arith_mix, x_arith_mi8x, x_shift_mi, x_shift_mi8x, x_shift_m1, x_shift_m1x, x_shift_mcl, x_shift_mclx, x_dbl_i8, x_dbl_cl, x_lea, x_mov_mr, x_mov_mrx, x_mov_rm, x_mov_rmx, x_mov_mi, x_mov_mix, x_mov_z, x_mov_zx, x_xchg_rm, x_xchg_rmx, getL;
     eapply hd_eq; [hp Hz; au|try (destruct (p_os p)); try reflexivity]]).
  - unfold x_imul_mi8x. apply hd_opif; intros Ho; [apply hd_err|]. eapply hd_eq; [hp Hz; au|reflexivity].
  - unfold x_imul_mix. apply hd_opif; intros Ho; [apply hd_err|]. eapply hd_eq; [hp Hz; au|rewrite Ho; reflexivity].
  - unfold x_imul_rmx. apply hd_opif; intros Ho; [apply hd_err|]. eapply hd_eq; [hp Hz; au|reflexivity].
  - unfold x_unary_m. destruct k as [|[]|]; try apply hd_err; (eapply hd_eq; [hp Hz; au|reflexivity]).
  - unfold x_unary_mx. apply hd_opif; intros Ho; cbn in Hp; destruct Hp as [->|[->| ->]]; cbv iota; (eapply hd_eq; [hp Hz; au|reflexivity]).
  - unfold x_bsf. eapply hd_eq; [hp Hz; au; destruct (_ =? 0); au|reflexivity].
  - intros s v s' Hs H. rewrite (lxs_check b u _ s Ht Hs) in H. revert s v s' Hs H. apply (hd_mem E base c osz asz A off b u z F W C0 Hz 0). intros x. au. apply adv_setseg, Hp.
  - unfold x_btx. destruct (k <? 4); [apply hd_err|]. apply (hd_eq _ _ _ _ _ (z + (1 + 0))); [|reflexivity]. hp Hz. apply adv_bind; [a0|intros]. au.
    destruct k as [|[[[]|[]|]|[[]|[]|]|]|]; au.
  - unfold x_mov_rs. apply hd_opif; intros Ho; [apply hd_err|]. apply (hd_peek E base c osz asz A off t F W C b u Ht). eapply hd_eq; [hp Hz; au|reflexivity].
  - unfold x_mov_sr. apply hd_opif; intros Ho; [apply hd_err|]. apply (hd_peek E base c osz asz A off t F W C b u Ht). apply hd_chk. apply (hd_eq _ _ _ _ _ (z + 0)); [|reflexivity]. hp Hz. au.
    apply adv_setseg. intros Hc. apply (Hp Hc b u Ht).
  - unfold x_pop_mx. apply hd_opif; intros Ho; [apply hd_err|]. eapply hd_eq; [hp Hz; au|reflexivity].
Qed.
Lemma group_size b u x k i z : t = b :: u -> modrm_size asz t = Some z -> op_layout x = Some (Group3 i) -> size_pre x k ->
  hd (z + if (b / 8) mod 8 =? 0 then imm_size p i else 0) (exec1 E x k).
Proof.
  intros Ht Hz Hl Hp. pose proof C as C0; rewrite Ht in C0, Hz. destruct x; try discriminate Hl; cbn [op_layout] in Hl; try (destruct f; try discriminate Hl); injection Hl as <-; cbn [imm_size exec1].
  all: cbn in Hp; rewrite <- (Hp b u Ht).
  - unfold x_misc_mi. eapply hd_eq; [hp Hz; apply adv_misc_select|reflexivity].
  - unfold x_misc_mix. eapply hd_eq; [hp Hz; apply adv_opw; apply adv_misc_select|]. destruct (k =? 0), (p_os p); reflexivity.
Qed.
Lemma exec_size x k l n : op_layout x = Some l -> layout_size p l t = Some n -> size_pre x k -> hd n (exec1 E x k).
Proof.
  intros Hl Hn Hp. destruct l as [i|i|i]; cbn [layout_size] in Hn.
  - injection Hn as <-. apply hd_adv, plain_size; auto.
  - destruct (modrm_size asz t) as [z|] eqn:Hz; [|discriminate]. injection Hn as <-. assert (exists b u, t = b :: u) as (b & u & Ht) by (destruct t; [discriminate|eauto]). eapply rm_size; eauto.
  - destruct (modrm_size asz t) as [z|] eqn:Hz; [|discriminate]. assert (exists b u, t = b :: u) as (b & u & Ht) by (destruct t; [discriminate|eauto]). rewrite Ht in Hn. injection Hn as <-. eapply group_size; eauto.
Qed.
End Handlers.
(** ** The tables. *)
Definition imm_eq (x y : imm_kind) : {x = y} + {x <> y}. Proof. decide equality. apply Z.eq_dec. Defined.
Definition lay_eq (x y : layout) : {x = y} + {x <> y}. Proof. decide equality; apply imm_eq. Defined.
Definition plain (l : layout) : bool := match l with Plain _ => true | _ => false end.
(** Handlers whose length depends on more than the layout, and where they occur. *)
Definition row_pre (two : bool) (b : Z) (e : entry) : bool :=
  match e_op e with
  | OPushI => negb two && (b =? 0x68)
  | OUnaryMX => negb two && (b =? 0xFF) && e_names e
  | OMiscMI | OMiscMIX => negb two && e_names e
  | OMovSR => negb two && (b =? 0x8E)
  | OPopSeg => negb (e_arg e =? 1) && negb (e_names e)
  | OLxs r => negb (r =? 1)
  | _ => true
  end.
Definition row (two : bool) (b : Z) : bool :=
  match (if two then layout0F b else layout1 b) with
  | Some l =>
    match (if two then ca_op0F b else ca_op b) with
    | Some e => match op_layout (e_op e) with Some l' => if lay_eq l l' then true else false | None => false end && negb (e_names e && plain l) && row_pre two b e
    | None => false
    end && (two || (negb (existsb (Z.eqb b) [38; 46; 54; 62; 100; 101; 102; 103; 242; 243]) && negb (b =? 241) &&
                     (negb (plain l) || match has_modrm [b] with None => true | _ => false end)))
  | None => true
  end.
Lemma rows : forall two b, 0 <= b < 256 -> row two b = true.
Proof.
  assert (H : forallb (fun n => row false (Z.of_nat n) && row true (Z.of_nat n)) (seq 0 256) = true) by (vm_compute; reflexivity).
  intros two b Hb. rewrite forallb_forall in H. specialize (H (Z.to_nat b) ltac:(apply in_seq; lia)). rewrite Z2Nat.id in H by lia. apply andb_true_iff in H. destruct two; tauto.
Qed.
Lemma size_dispatch p bs n : (forall b, In b bs -> 0 <= b < 256) -> insn_size p bs = Some n -> length_known p bs ->
  opcode_read bs /\ exists x k m l t, dispatch bs = Some (x, k, m) /\ op_layout x = Some l /\ layout_size p l t = Some (n - m) /\ (exists h, bs = h ++ t /\ blen h = m) /\
    forall c, (c = true -> ~ mov_cs bs) -> size_pre c p t x k.
Proof.
  intros Hb Hn Hk. destruct bs as [|b t]; [contradiction|]. pose proof (Hb b (or_introl eq_refl)) as Hb0. cbn [insn_size] in Hn. unfold dispatch.
  destruct (Z.eqb_spec b 15) as [->|H15].
  - destruct t as [|b2 t]; [discriminate|]. pose proof (rows true b2 (Hb b2 (or_intror (or_introl eq_refl)))) as R. unfold row in R.
    destruct (layout0F b2) as [l|] eqn:El; [|discriminate]. destruct (layout_size p l t) as [q|] eqn:Eq; [|discriminate]. injection Hn as <-.
    destruct (ca_op0F b2) as [e|] eqn:Ee; [|discriminate]. destruct (op_layout (e_op e)) as [l'|] eqn:Ex; [|discriminate].
    destruct (lay_eq l l') as [<-|]; [|discriminate]. rewrite !andb_true_iff in R. destruct R as [[_ R] _].
    split; [split; [unfold prefix_byte; cbn [In]; lia|split; [lia|discriminate]]|].
    exists (e_op e), (e_arg e), 2, l, t. split; [reflexivity|]. split; [exact Ex|]. split; [rewrite Eq; f_equal; lia|]. split; [exists [15; b2]; split; reflexivity|].
    intros c Hc. unfold row_pre in R. unfold size_pre. destruct (e_op e); auto; try discriminate R; intros ->; lia.
  - pose proof (rows false b Hb0) as R. unfold row in R. destruct (layout1 b) as [l|] eqn:El; [|discriminate]. destruct (layout_size p l t) as [q|] eqn:Eq; [|discriminate]. injection Hn as <-.
    destruct (ca_op b) as [e|] eqn:Ee; [|discriminate]. destruct (op_layout (e_op e)) as [l'|] eqn:Ex; [|discriminate].
    destruct (lay_eq l l') as [<-|]; [|discriminate]. rewrite !andb_true_iff, orb_false_l, !andb_true_iff, !negb_true_iff in R. destruct R as [[[_ Rn] R] [[R1 R2] R3]].
    replace (b =? 241) with false by lia.
    split.
    { split; [|split; [lia|]].
      - intros Hi. unfold prefix_byte in Hi. rewrite <- not_true_iff_false in R1. apply R1. apply existsb_exists. exists b. split; [exact Hi|apply Z.eqb_refl].
      - intros ->. split; [exact H15|]. destruct l; [|discriminate Eq|discriminate Eq]. cbn [plain negb orb] in R3. destruct (has_modrm [b]); [discriminate|reflexivity]. }
    assert (Hm : e_names e = true -> exists mb u, t = mb :: u).
    { intros En. rewrite En in Rn. destruct l; [discriminate Rn| |]; (destruct t as [|mb u]; [discriminate Eq|eauto]). }
    destruct Hk as [Hk1 Hk2].
    exists (e_op e), (if e_names e then match t with mb :: _ => (mb / 8) mod 8 | [] => 0 end else e_arg e), 1, l, t.
    split; [destruct (e_names e); [destruct (Hm eq_refl) as (mb & u & ->)|]; reflexivity|]. split; [exact Ex|]. split; [rewrite Eq; f_equal; lia|]. split; [exists [b]; split; reflexivity|].
    intros c Hc. unfold row_pre in R. unfold size_pre.
    destruct (e_op e); auto; cbn [negb andb] in R.
    + rewrite R. intros m u ->. reflexivity.
    + rewrite R. intros m u ->. reflexivity.
    + apply andb_true_iff in R. destruct R as [R ->]. apply Z.eqb_eq in R. specialize (Hk2 R). destruct t; [contradiction|]. exact Hk2.
    + intros ->. lia.
    + intros Ht m u ->. intros H1. apply (Hc Ht). split; [lia|exact H1].
    + intros ->. apply andb_true_iff in R. destruct R as [R Rm]. apply negb_true_iff in Rm. rewrite Rm. lia.
    + destruct (p_os p); [|reflexivity]. elim Hk1. split; [reflexivity|lia].
Qed.

(** A successful instruction: either it went through to the next one, or it raised a divide fault. *)
Theorem run_size E base s pre p bs s' : polite E -> fetched E base s pre p bs -> wf_state s -> 0 <= cpu (ar s) <= 2 ->
  insn_size p bs = Some (blen bs) -> length_known p bs -> run_one E s = Ok tt s' ->
  (r_ip (ar s') = low 16 (r_ip (ar s) + blen (pre ++ bs)) /\ (~ mov_cs bs -> r_cs (ar s') = r_cs (ar s))) \/
  (may_divfault bs /\ vector 0 (ar s') = (r_cs (ar s'), r_ip (ar s'))).
Proof.
  intros Hpol Hf Hw Hcpu Hsz Hk Hrun. pose proof Hf as (Rd & Hp & C). destruct Rd as [F W PC Hc].
  assert (Hbytes : forall b, In b bs -> 0 <= b < 256).
  { intros b Hb. destruct C as [_ C]. apply In_nth_error in Hb. destruct Hb as [i Hi].
    assert (Hi2 : nth_error (pre ++ bs) (length pre + i) = Some b) by (rewrite nth_error_app2 by lia; replace (length pre + i - length pre)%nat with i by lia; exact Hi).
    apply C in Hi2. rewrite <- Hi2. unfold byte. destruct (hmem (ar s) _) eqn:Hh; [eapply ws_bytes; eauto|lia]. }
  destruct (size_dispatch p bs _ Hbytes Hsz Hk) as (Hr & o & k & m & l & t & Hd & Hl & Hn & (h & Hh & Hm) & Hpre).
  destruct (dispatch_class bs o k m Hr Hbytes Hd) as (Hcl & Ha & Hm1 & Hm2).
  pose proof (prefixes_length _ _ Hp) as Hpl. assert (Hbl : 0 <= blen pre <= 4) by (unfold blen; lia).
  set (s0 := hstart s p (blen pre + m)).
  assert (W0 : wf_state s0) by (eapply wf_hstart; eauto; lia).
  pose proof (inv_refl (opperm o) s0 W0) as I0.
  pose proof (opperm_ok E s0 o Hpol Hcpu) as Hperm.
  assert (Hmem : (exists base, flat E base (ar s0)) \/ (pm_ub (opperm o) UbDeref /\ pm_ub (opperm o) UbUninit)) by (left; exists base; exact F).
  pose proof (proj1 (keeps_run _ _ _ _ _) (exec1_keeps E (opperm o) s0 Hmem o k Ha Hperm (cl_pre _ _ Hcl)) s0 I0) as HX.
  unfold s0, hstart in HX.
  destruct (exec1 E o k (mkSt (ar s) (dec_of p (blen pre + m)) (dbg s) (icount s + 1) (lastnull s))) as [[] s2|c s2|r|] eqn:Hx; try contradiction.
  - left. destruct HX as (I2 & _).
    assert (C2 : code_from (ar s) (blen pre + m) t).
    { rewrite Hh in C. pose proof (code_from_0 _ _ C) as C0. apply code_from_app in C0. apply code_from_app in C0. rewrite Z.add_0_l, Hm in C0. exact C0. }
    assert (K : forall c, (c = true -> ~ mov_cs bs) -> kp c (mkSt (ar s) (dec_of p (blen pre + m)) (dbg s) (icount s + 1) (lastnull s)) s2 (blen bs - m)).
    { intros c Hcc. apply (fun H => exec_size E base c p (ar s) (blen pre + m) t F W C2 o k l _ Hl Hn (Hpre c Hcc) _ tt s2 H Hx). repeat split. }
    pose proof (K false ltac:(discriminate)) as [K1 K2 K3 K4 K5 _]. cbn [dc dec_of d_ipoff d_noip ar] in *.
    assert (R : r_ip (ar s') = low 16 (r_ip (ar s) + blen (pre ++ bs)) /\ r_cs (ar s') = r_cs (ar s2)).
    { rewrite run_one_normal in Hrun by exact PC. destruct s as [a d g n0 l0]. cbn [ar dc dbg icount lastnull] in *.
      rewrite do_opcode_eq in Hrun by exact Hc. unfold bind at 1 in Hrun.
      rewrite (op_loop_exec E base a pre p g (n0 + 1) l0 bs o k m F W C Hp Hd) in Hrun. rewrite Hx in Hrun.
      set (s3 := set_ar (a_ip (wrap 16 (r_ip (ar s2) + d_ipoff (dc s2))) (ar s2)) s2).
      assert (Hadv : advance_ip s2 = Ok tt s3).
      { unfold s3, advance_ip, bind, getD, getA, gets. rewrite K4. reflexivity. }
      unfold bind at 1 in Hrun. rewrite Hadv in Hrun.
      assert (F3 : flat E base (ar s3)).
      { pose proof (inv_flat E _ s0 s2 base F I2) as F2. eapply flat_ext; [| |exact F2]; reflexivity. }
      assert (Q : r_ip (ar s3) = low 16 (r_ip a + blen (pre ++ bs)) /\ r_cs (ar s3) = r_cs (ar s2)).
      { split; [|reflexivity]. unfold s3. cbn [set_ar ar a_ip r_ip]. rewrite K1, K5. unfold blen. rewrite app_length. unfold wrap, low. f_equal. unfold blen. lia. }
      unfold bind at 1 in Hrun. destruct (null_flat E base (r_cs a) (r_ip a) s3 F3 ltac:(apply W)) as [[l' Hn']|Hn']; rewrite Hn' in Hrun.
      + rewrite (trace_flat E base) in Hrun by (try exact F3; try apply W; cbn; apply (iv_off _ _ _ I2)).
        injection Hrun as <-. exact Q.
      + discriminate Hrun. }
    destruct R as [R1 R2]. split; [exact R1|]. intros Hmc. rewrite R2. apply (K true ltac:(auto)). reflexivity.
  - right. destruct HX as (I2 & Hc2 & Hdv).
    rewrite (run_err E base s pre p bs o k m c s2 Hf Hd Hx) in Hrun by (unfold E_CONTINUE; lia).
    destruct (Z.eqb_spec c E_DIVERR) as [->|Hne]; [|discriminate]. specialize (Hdv eq_refl). cbn in Hdv. pose proof (inv_flat E _ s0 s2 base F I2) as F2.
    destruct s2 as [a2 d2 g2 n2 l2]. cbn [ar] in F2.
    destruct (int_callint_eq E base 0 a2 d2 g2 n2 l2 ltac:(lia) F2 (iv_regs _ _ _ I2)) as (a' & Hi & F' & Hs). rewrite Hi in Hrun. injection Hrun as <-.
    split; [apply Hcl, Hdv|eapply enter_vec; exact Hs].
  - rewrite (run_ub E base s pre p bs o k m r Hf Hd Hx) in Hrun. discriminate.
Qed.
