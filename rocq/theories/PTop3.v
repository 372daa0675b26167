(** One RME_RunOne by opcode: what each class of instructions may do. *)
From Verif Require Import Base Cpu Alu Ops Machine Spec SpecOps SpecOps2 SpecSys SpecRun PBase PMem PRun PFrame PAlu PExec PStep PIInt PKeep PKeep2 PKeep3 PTop PTop2.

(** ** Table facts: handlers by opcode byte *)
Definition mem_b (l : list Z) (b : Z) : bool := existsb (Z.eqb b) l.
Lemma mem_In l b : mem_b l b = true <-> In b l.
Proof.
  unfold mem_b. rewrite existsb_exists. split.
  - intros (x & H1 & H2). apply Z.eqb_eq in H2. subst. exact H1.
  - intros H. exists b. split; [exact H|apply Z.eqb_refl].
Qed.
Definition impb (a b : bool) : bool := negb a || b.
Lemma impb_ok a b : impb a b = true -> a = true -> b = true.
Proof. destruct a, b; cbn; congruence. Qed.
Definition idx : list Z := map Z.of_nat (seq 0 256).
Lemma in_idx b : 0 <= b < 256 -> In b idx.
Proof. intros. unfold idx. apply in_map_iff. exists (Z.to_nat b). split; [lia|]. apply in_seq. lia. Qed.
Lemma idx_ok (f : Z -> bool) : forallb f idx = true -> forall b, 0 <= b < 256 -> f b = true.
Proof. intros H b Hb. rewrite forallb_forall in H. apply H, in_idx, Hb. Qed.

Definition is_some {X} (o : option X) : bool := match o with Some _ => true | None => false end.
Definition row1 (b : Z) : bool :=
  match ca_op b with
  | None => mem_b undefined1 b || (b =? 241)
  | Some e =>
    negb (mem_b undefined1 b) && negb (b =? 241) &&
    impb (e_names e) (is_some (has_modrm [b])) &&
    ((b =? 15) || (
    let o := e_op e in
    impb (op_ctl o) (mem_b ctl1 b) && impb (op_cs o) (mem_b ctl1 b || (b =? 142)) && impb (op_io o) (mem_b io1 b) &&
    impb (op_div o) (mem_b [212; 246; 247] b) && impb (op_cb o) (mem_b [204; 205; 206] b) &&
    impb (op_ub o UbMapIndex || op_ub o UbDeref) (is_some (has_modrm [b])) &&
    impb (op_ub o UbShift) (mem_b [192; 193; 208; 209; 210; 211] b) &&
    impb (op_ub o UbMulOverflow) (mem_b [105; 107] b) && impb (op_ub o UbDivOverflow) (b =? 247) &&
    impb (op_ub o UbSegReg) (mem_b [140; 142] b) && impb (is_prefix o) (mem_b [38; 46; 54; 62; 100; 101; 102; 103; 242; 243] b)))
  end.
Definition row0F (b : Z) : bool :=
  match ca_op0F b with
  | None => negb (mem_b defined0F b)
  | Some e =>
    mem_b defined0F b &&
    let o := e_op e in
    impb (op_ctl o) (mem_b ctl0F b) && impb (op_cs o) (mem_b ctl0F b) && negb (op_io o) && negb (op_cb o) && negb (op_div o) &&
    impb (op_ub o UbMapIndex || op_ub o UbDeref) (is_some (has_modrm [15; b])) &&
    impb (op_ub o UbShift) (mem_b [164; 165; 172; 173] b) &&
    impb (op_ub o UbMulOverflow) (b =? 175) && negb (op_ub o UbDivOverflow) &&
    negb (op_ub o UbSegReg) && negb (is_prefix o)
  end.
Lemma row1_ok : forallb row1 idx = true. Proof. vm_compute. reflexivity. Qed.
Lemma row0F_ok : forallb row0F idx = true. Proof. vm_compute. reflexivity. Qed.

Lemma has_modrm_1 b t : b <> 15 -> is_some (has_modrm (b :: t)) = is_some (has_modrm [b]).
Proof.
  intros Hb.
  assert (A : forall t, has_modrm (b :: t) = 
    if (0 <=? b) && (b <? 64) then
      if b mod 8 <? 4 then Some (Z.odd b, t) else None
    else if (b =? 105) || (b =? 107) then Some (true, t)
    else if (128 <=? b) && (b <=? 139) then Some (Z.odd b, t)
    else if (b =? 141) || (b =? 196) || (b =? 197) then Some (false, t)
    else if (140 <=? b) && (b <=? 143) then Some (true, t)
    else if (b =? 192) || (b =? 193) || (b =? 198) || (b =? 199) ||
            ((208 <=? b) && (b <=? 211)) || (b =? 246) || (b =? 247) ||
            (b =? 254) || (b =? 255)
    then Some (Z.odd b, t)
    else None).
  { intros t'. destruct b as [|q|q]; try reflexivity.
    destruct (Pos.eq_dec q 15) as [->|Hq]; [congruence|].
    destruct q as [[[q|q|]|[q|q|]|]|[[q|q|]|[q|q|]|]|]; try reflexivity. destruct q; [reflexivity|reflexivity|congruence]. }
  rewrite !A. repeat match goal with |- context [if ?c then _ else _] => destruct c end; reflexivity.
Qed.
Lemma is_some_ne {X} (o : option X) : is_some o = true -> o <> None. Proof. destruct o; cbn; congruence. Qed.
Lemma has_modrm_2 b t : is_some (has_modrm (15 :: b :: t)) = is_some (has_modrm [15; b]).
Proof. cbn [has_modrm]. repeat match goal with |- context [if ?c then _ else _] => destruct c end; reflexivity. Qed.

(** The byte classes of SpecRun, as facts about the dispatched handler. *)
Record classed (bs : list Z) (o : opid) : Prop := mkClassed {
  cl_ctl : op_ctl o = true -> may_jump bs;
  cl_cs : op_cs o = true -> may_jump bs \/ loads_sreg bs;
  cl_io : op_io o = true -> may_io bs;
  cl_div : op_div o = true -> may_divfault bs;
  cl_cb : op_cb o = true -> may_callback bs;
  cl_ub : forall r, r <> UbCpuType -> op_ub o r = true -> may_ub bs r;
  cl_pre : is_prefix o = false
}.
Ltac useimp := match goal with H : impb ?a ?b = true, H' : ?a = true |- _ => exact (impb_ok a b H H') end.
Ltac rows := repeat match goal with H : _ && _ = true |- _ => apply andb_true_iff in H; destruct H end.
Lemma dispatch_class bs o k m : opcode_read bs -> (forall b, In b bs -> 0 <= b < 256) -> dispatch bs = Some (o, k, m) ->
  classed bs o /\ arg_ok o k /\ 1 <= m <= 2 /\ m + op_len o <= 11.
Proof.
  intros Hr Hb Hd. destruct bs as [|b t]; [contradiction|]. destruct Hr as (Hpre & H241 & Hlast).
  cbn [dispatch] in Hd. replace (b =? 241) with false in Hd by lia.
  pose proof (idx_ok _ row1_ok b (Hb b (or_introl eq_refl))) as Hrow. unfold row1 in Hrow.
  destruct (Z.eqb_spec b 15) as [->|H15].
  - destruct t as [|b2 t]; [discriminate|]. pose proof (idx_ok _ row0F_ok b2 (Hb b2 (or_intror (or_introl eq_refl)))) as H2.
    unfold row0F in H2. destruct (ca_op0F b2) as [e|] eqn:He; [|discriminate]. injection Hd as <- <- <-.
    destruct (ca_op0F_ok _ _ He) as (Ha & Hp & Hl). apply andb_true_iff in H2. destruct H2 as [_ H2]. cbv zeta in H2.
    rows. split; [|split; [exact Ha|rewrite Hl; lia]]. constructor; auto.
    + intros H'. right. split; [reflexivity|]. apply mem_In. useimp.
    + intros H'. left. right. split; [reflexivity|]. apply mem_In. useimp.
    + intros H'. destruct (op_io (e_op e)); discriminate.
    + intros H'. destruct (op_div (e_op e)); discriminate.
    + intros H'. destruct (op_cb (e_op e)); discriminate.
    + intros r Hr Hu. 
      assert (Hmr : op_ub (e_op e) UbMapIndex || op_ub (e_op e) UbDeref = true -> has_modrm (15 :: b2 :: t) <> None).
      { intros Hx. apply is_some_ne. rewrite has_modrm_2. useimp. }
      destruct r; cbn [may_ub]; try congruence.
      * apply Hmr. rewrite Hu. reflexivity.
      * apply Hmr. rewrite Hu. apply orb_true_r.
      * right. split; [reflexivity|]. apply mem_In. useimp.
      * right. split; [reflexivity|]. apply Z.eqb_eq. useimp.
      * rewrite Hu in *. discriminate.
      * destruct (e_op e); discriminate.
      * rewrite Hu in *. discriminate.
      * destruct (e_op e); discriminate.
  - destruct (ca_op b) as [e|] eqn:He; [|discriminate].
    destruct (ca_op_ok _ _ He) as [Hea Hk].
    assert (Hd' : o = e_op e /\ m = 1 /\ 0 <= k < 8 /\ (e_names e = false -> k = e_arg e)).
    { destruct (e_names e); [destruct t as [|mb t]; [discriminate|]|]; injection Hd as <- <- <-; (split; [reflexivity|]; split; [reflexivity|]).
      - split; [apply Z.mod_pos_bound; lia|discriminate].
      - split; [exact Hea|reflexivity]. }
    destruct Hd' as (-> & -> & Hk8 & Hkn). specialize (Hk k Hk8 Hkn).
    replace (b =? 15) with false in Hrow by lia. cbn [orb] in Hrow. cbv zeta in Hrow. rows.
    split; [|split; [exact Hk|pose proof (op_len_le (e_op e)); lia]].
    constructor.
    + intros H'. left. apply mem_In. useimp.
    + intros H'. match goal with H : impb (op_cs _) _ = true |- _ => apply (impb_ok _ _ H) in H'; apply orb_true_iff in H'; destruct H' as [H'|H'] end.
      * left. left. apply mem_In. exact H'.
      * right. apply Z.eqb_eq. exact H'.
    + intros H'. apply mem_In. useimp.
    + intros H'. apply mem_In. useimp.
    + intros H'. apply mem_In. useimp.
    + intros r Hr Hu.
      assert (Hmr : op_ub (e_op e) UbMapIndex || op_ub (e_op e) UbDeref = true -> has_modrm (b :: t) <> None).
      { intros Hx. apply is_some_ne. rewrite has_modrm_1 by exact H15. useimp. }
      destruct r; cbn [may_ub]; try congruence.
      * apply Hmr. rewrite Hu. reflexivity.
      * apply Hmr. rewrite Hu. apply orb_true_r.
      * left. apply mem_In. useimp.
      * left. apply mem_In. useimp.
      * apply Z.eqb_eq. useimp.
      * destruct (e_op e); discriminate.
      * apply mem_In. useimp.
      * destruct (e_op e); discriminate.
    + destruct (is_prefix (e_op e)) eqn:Hp; [|reflexivity]. exfalso. apply Hpre. apply mem_In.
      match goal with H : impb true _ = true |- _ => exact (impb_ok _ _ H eq_refl) end.
Qed.
(** No handler: the opcode is undefined. *)
Lemma dispatch_none bs : opcode_read bs -> (forall b, In b bs -> 0 <= b < 256) -> (dispatch bs = None <-> undefined_opcode bs).
Proof.
  intros Hr Hb. destruct bs as [|b t]; [contradiction|]. destruct Hr as (Hpre & H241 & Hlast).
  cbn [dispatch undefined_opcode]. replace (b =? 241) with false by lia.
  pose proof (idx_ok _ row1_ok b (Hb b (or_introl eq_refl))) as Hrow. unfold row1 in Hrow.
  destruct (Z.eqb_spec b 15) as [->|H15].
  - destruct t as [|b2 t]; [destruct (Hlast eq_refl); congruence|].
    pose proof (idx_ok _ row0F_ok b2 (Hb b2 (or_intror (or_introl eq_refl)))) as H2. unfold row0F in H2.
    destruct (ca_op0F b2) as [e|].
    + split; [discriminate|]. intros [H|[_ H]]; [exfalso; cbn in H; intuition congruence|].
      exfalso. apply H. apply mem_In. apply andb_true_iff in H2. apply H2.
    + split; [|reflexivity]. intros _. right. split; [reflexivity|]. intros H. apply mem_In in H. rewrite H in H2. discriminate.
  - destruct (ca_op b) as [e|] eqn:He.
    + apply andb_true_iff in Hrow. destruct Hrow as [Hrow _].  rows. split.
      * intros Hd. exfalso. destruct (e_names e) eqn:En; [|discriminate]. destruct t as [|mb t]; [|discriminate].
        destruct (Hlast eq_refl) as [_ Hm].
        match goal with H : impb true (is_some _) = true |- _ => rewrite Hm in H; discriminate end.
      * intros [H'|[H' _]]; [|congruence]. apply mem_In in H'. rewrite H' in *. discriminate.
    + split; [|reflexivity]. intros _. left. apply mem_In. replace (b =? 241) with false in Hrow by lia. rewrite orb_false_r in Hrow. exact Hrow.
Qed.

(** ** The instruction *)
Lemma ub_eq_dec (a b : ub) : {a = b} + {a <> b}. Proof. decide equality. Qed.
Lemma inv_flat E P s0 s base : flat E base (ar s0) -> inv P s0 s -> flat E base (ar s).
Proof.
  intros [F1 F2 F3 F4] I0. constructor; auto.
  - intros b Hb. rewrite (iv_tab _ _ _ I0). auto.
  - intros x Hx. destruct (F4 x Hx) as (v & Hv & _). destruct (hmem (ar s) (base + x)) as [u|] eqn:Hu.
    + exists u. split; [reflexivity|]. eapply iv_byte; eauto.
    + apply (iv_dom _ _ _ I0) in Hu. congruence.
Qed.
Lemma null_flat E base cs ip s : flat E base (ar s) -> inrange 16 cs ->
  (exists l, null_hack E cs ip s = Ok tt (set_lastnull l s)) \/ null_hack E cs ip s = Err E_BREAK s.
Proof.
  intros F Hc. destruct s as [a d g n l]. cbn [ar] in F. unfold null_hack. msteps.
  destruct (d_ipoff d =? 2); [|left; eexists; reflexivity].
  erewrite bind_ok by (apply rd_flat with (base := base); auto; unfold width; lia).
  erewrite bind_ok by (apply rd_flat with (base := base); auto; unfold width; lia).
  destruct (_ && _); [|left; eexists; reflexivity].
  unfold bind, gets. cbn [lastnull]. destruct l; [right; reflexivity|left; eexists; reflexivity].
Qed.
Lemma trace_flat E base cs ip s : flat E base (ar s) -> inrange 16 cs -> 0 <= d_ipoff (dc s) ->
  trace_dump E cs ip s = Ok tt s.
Proof.
  intros F Hc Ho. destruct s as [a d g n l]. cbn [ar dc] in *. unfold trace_dump, gets, bind, getD, gets. cbn [dbg dc].
  destruct (1 <=? g); [|reflexivity]. cbn [dc]. replace (d_ipoff d <? 0) with false by lia. eapply dump_bytes_ok; eauto.
Qed.
Definition opperm (o : opid) : perm :=
  mkPerm (op_ctl o) (op_cs o) (op_io o || op_cb o) (op_div o) (fun r => r <> UbCpuType /\ op_ub o r = true).
Definition hstart (s : st) (p : pfx) (off : Z) : st := mkSt (ar s) (dec_of p off) (dbg s) (icount s + 1) (lastnull s).
Lemma opperm_ok E s0 o : polite E -> 0 <= cpu (ar s0) <= 2 -> op_perm E (opperm o) s0 o.
Proof.
  intros Hp Hc. split; [|split; [|split; [|split; [|split]]]]; cbn; auto.
  - intros ->. reflexivity.
  - intros Hcb h n s Hs. destruct (Hp h n s) as (H1 & H2 & H3 & H4).
    { apply (ge_wf s0 s), (inv_effect _ _ _ Hs). }
    split; [|rewrite H4; reflexivity].
    assert (G : guest_effect s0 (callback E h n s)) by (eapply effect_trans; [eapply inv_effect; eauto|exact H1]).
    apply effect_inv in G; [|rewrite H2; apply Hs|rewrite H3; apply Hs].
    destruct G. constructor; auto; destruct o; try discriminate Hcb; cbn [opperm pm_ctl pm_cs pm_io op_ctl op_cs op_io op_cb orb]; try discriminate.
    all: destruct iv_log as (l & Hl & _); exists l; split; [exact Hl|discriminate].
  - intros r Hr. destruct (ub_eq_dec r UbCpuType) as [->|Hne]; [right; auto|left; auto].
Qed.


Lemma prefixes_rep pre p : prefixes pre = Some p -> p_rep p = 0 \/ p_rep p = 242 \/ p_rep p = 243.
Proof.
  unfold prefixes. assert (Hg : forall pre q, p_rep q = 0 \/ p_rep q = 242 \/ p_rep q = 243 -> prefixes_from q pre = Some p ->
      p_rep p = 0 \/ p_rep p = 242 \/ p_rep p = 243).
  { induction pre0 as [|b t IH]; intros q Hq; cbn [prefixes_from].
    - intros [= <-]; exact Hq.
    - destruct (add_prefix q b) as [q'|] eqn:He; [|discriminate]. apply IH.
      destruct (add_prefix_cases _ _ _ He) as [(k & _ & _ & ->) | [(_ & _ & ->) | [(_ & _ & ->) | (H & _ & ->)]]]; cbn; tauto. }
  apply Hg. left. reflexivity.
Qed.
Lemma wf_hstart s pre p off : wf_state s -> prefixes pre = Some p -> 0 <= off -> wf_state (hstart s p off).
Proof.
  intros [H1 H2 H3 H4 H5] Hp Ho. pose proof (prefixes_ok _ _ Hp) as Hk. pose proof (prefixes_rep _ _ Hp) as Hr. constructor; cbn; auto.
  destruct p as [[n|] ? ? ?]; cbn in *; [right; lia|left; reflexivity].
Qed.
Lemma inv_refl P s : wf_state s -> inv P s s.
Proof.
  intros []. constructor; auto; try (intros; split; auto; fail).
  exists []. rewrite app_nil_r. auto.
Qed.
Lemma inv_hstart_effect P s p off s' : inv P (hstart s p off) s' -> guest_effect s s'.
Proof. intros H. apply inv_effect in H. destruct H as [? [] ? ?]. constructor; auto. constructor; auto. Qed.
Lemma effect_lastnull s l s' : guest_effect s s' -> guest_effect s (set_lastnull l s').
Proof. intros [[] [] ? ?]. constructor; auto; constructor; auto. Qed.

Lemma enter_vec_gen n fl fa a' : same a' (let '(sg, o) := vector n fa in far sg o (a_flags fl fa)) ->
  vector n a' = (r_cs a', r_ip a') /\ iolog a' = iolog fa.
Proof.
  intros H. unfold vector in *. rewrite !(same_mem _ _ 16 _ H). rewrite !(mem_ext 16 (far _ _ _) fa) by reflexivity.
  destruct H. rewrite sm_cs, sm_ip, sm_io. split; reflexivity.
Qed.
Lemma wmem_io w x v a : iolog (with_mem w x v a) = iolog a.
Proof.
  unfold with_mem. generalize (Z.to_nat (w / 8)) as n. intros n. revert x v a. induction n as [|n IH]; intros; cbn [poke]; [reflexivity|].
  rewrite IH. reflexivity.
Qed.
Lemma push16_io v a : iolog (push16 v a) = iolog a.
Proof. unfold push16. cbv zeta. rewrite wmem_io. reflexivity. Qed.
Lemma enter_vec n ret a a' : same a' (enter_int n ret a) -> vector n a' = (r_cs a', r_ip a') /\ iolog a' = iolog a.
Proof.
  intros H. unfold enter_int in H. apply enter_vec_gen in H. destruct H as [H1 H2]. split; [exact H1|].
  rewrite H2. unfold int_frame. rewrite !push16_io. reflexivity.
Qed.
(** The conclusion of the theorem about a single instruction. *)
Record stays (s s' : st) (bs : list Z) : Prop := mkStays {
  sy_effect : guest_effect s s';
  sy_count : icount s' = icount s + 1;
  sy_io : ~ may_io bs -> ~ may_callback bs -> iolog (ar s') = iolog (ar s)
}.
Record advances (s s' : st) (bs : list Z) : Prop := mkAdvances {
  ad_ip : ~ may_jump bs -> exists len, 1 <= len <= 15 /\ r_ip (ar s') = low 16 (r_ip (ar s) + len);
  ad_cs : ~ may_jump bs -> ~ loads_sreg bs -> r_cs (ar s') = r_cs (ar s)
}.
Theorem instr_general E base s pre p bs : polite E -> fetched E base s pre p bs -> wf_state s ->
  0 <= cpu (ar s) <= 2 -> opcode_read bs -> ~ undefined_opcode bs ->
  match run_one E s with
  | Ok _ s' => stays s s' bs /\ (advances s s' bs \/ (may_divfault bs /\ vector 0 (ar s') = (r_cs (ar s'), r_ip (ar s'))))
  | Err c s' => stays s s' bs /\ 2 <= c <= 8 /\ c <> E_DIVERR
  | UB r => may_ub bs r
  | Fuel => False
  end.
Proof.
  intros Hpol Hf Hw Hcpu Hr Hu. pose proof Hf as (Rd & Hp & C). destruct Rd as [F W PC Hc].
  assert (Hbytes : forall b, In b bs -> 0 <= b < 256).
  { intros b Hb. destruct C as [_ C]. apply In_nth_error in Hb. destruct Hb as [i Hi].
    assert (Hi2 : nth_error (pre ++ bs) (length pre + i) = Some b) by (rewrite nth_error_app2 by lia; replace (length pre + i - length pre)%nat with i by lia; exact Hi).
    apply C in Hi2. rewrite <- Hi2. unfold byte. destruct (hmem (ar s) _) eqn:Hh; [eapply ws_bytes; eauto|lia]. }
  destruct (dispatch bs) as [[[o k] m]|] eqn:Hd; [|apply dispatch_none in Hd; auto; contradiction].
  destruct (dispatch_class bs o k m Hr Hbytes Hd) as (Hcl & Ha & Hm1 & Hm2).
  pose proof (prefixes_length _ _ Hp) as Hpl. assert (Hbl : 0 <= blen pre <= 4) by (unfold blen; lia).
  set (s0 := hstart s p (blen pre + m)).
  assert (W0 : wf_state s0) by (eapply wf_hstart; eauto; lia).
  pose proof (inv_refl (opperm o) s0 W0) as I0.
  pose proof (opperm_ok E s0 o Hpol Hcpu) as Hperm.
  assert (Hmem : (exists base, flat E base (ar s0)) \/ (pm_ub (opperm o) UbDeref /\ pm_ub (opperm o) UbUninit)) by (left; exists base; exact F).
  pose proof (proj1 (keeps_run _ _ _ _ _) (exec1_keeps E (opperm o) s0 Hmem o k Ha Hperm (cl_pre _ _ Hcl)) s0 I0) as HX.
  assert (Hst : forall s', inv (opperm o) s0 s' -> stays s s' bs).
  { intros s' I'. constructor.
    - eapply inv_hstart_effect; eauto.
    - apply (iv_cnt _ _ _ I').
    - intros Hio Hcb. destruct (iv_log _ _ _ I') as (l & Hl & Hn). rewrite Hl. unfold s0. cbn [hstart ar].
      rewrite Hn; [apply app_nil_r|]. cbn. destruct (op_io o) eqn:H1; [elim Hio; apply Hcl, H1|].
      destruct (op_cb o) eqn:H2; [elim Hcb; apply Hcl, H2|reflexivity]. }
  assert (Hln : forall l s', stays s s' bs -> stays s (set_lastnull l s') bs).
  { intros l s' [H1 H2 H3]. constructor; auto. apply effect_lastnull, H1. }
  unfold s0, hstart in HX.
  destruct (exec1 E o k (mkSt (ar s) (dec_of p (blen pre + m)) (dbg s) (icount s + 1) (lastnull s))) as [[] s2|c s2|r|] eqn:Hx; try contradiction.
  - destruct HX as (I2 & L2 & _). cbn [dc dec_of d_ipoff] in L2.
    rewrite run_one_normal by exact PC. destruct s as [a d g n l]. cbn [ar dc dbg icount lastnull] in *.
    rewrite do_opcode_eq by exact Hc. unfold bind at 1.
    rewrite (op_loop_exec E base a pre p g (n + 1) l bs o k m F W C Hp Hd). rewrite Hx.
    set (s3 := if d_noip (dc s2) then s2 else set_ar (a_ip (wrap 16 (r_ip (ar s2) + d_ipoff (dc s2))) (ar s2)) s2).
    assert (Hadv : advance_ip s2 = Ok tt s3).
    { unfold s3, advance_ip, bind, getD, getA, gets. destruct (d_noip (dc s2)); reflexivity. }
    unfold bind at 1. rewrite Hadv.
    assert (S3 : stays (mkSt a d g n l) s3 bs).
    { pose proof (Hst s2 I2) as [[[G1 G2 G3 G4 G5] [G6 G7 G8 G9 G10] G11 G12] G13 G14]. unfold s3. destruct (d_noip (dc s2)); [apply Hst, I2|].
      constructor; [constructor; [constructor|constructor| |]|exact G13|exact G14]; auto.
      destruct G1. constructor; cbn; auto. apply wrap_range. lia. }
    assert (A3 : advances (mkSt a d g n l) s3 bs).
    { constructor.
      - intros Hj. destruct (op_ctl o) eqn:Hctl; [elim Hj; apply Hcl, Hctl|].
        destruct (iv_pc _ _ _ I2 Hctl) as [P1 P2]. cbn [s0 hstart ar dc dec_of d_noip] in P1, P2.
        exists (d_ipoff (dc s2)). split; [lia|]. unfold s3. rewrite P2. cbn [set_ar ar a_ip r_ip]. rewrite P1. reflexivity.
      - intros Hj Hl. destruct (op_cs o) eqn:Hcs; [destruct (cl_cs _ _ Hcl Hcs); contradiction|].
        pose proof (iv_cs _ _ _ I2 Hcs) as P1. unfold s3. destruct (d_noip (dc s2)); exact P1. }
    assert (F3 : flat E base (ar s3)).
    { pose proof (inv_flat E _ s0 s2 base F I2) as F2. unfold s3. destruct (d_noip (dc s2)); [exact F2|].
      eapply flat_ext; [| |exact F2]; reflexivity. }
    assert (D3 : dc s3 = dc s2) by (unfold s3; destruct (d_noip (dc s2)); reflexivity).
    unfold bind at 1. destruct (null_flat E base (r_cs a) (r_ip a) s3 F3 ltac:(apply W)) as [[l' Hn]|Hn]; rewrite Hn.
    + rewrite (trace_flat E base) by (try exact F3; try apply W; cbn; rewrite D3; apply (iv_off _ _ _ I2)).
      split; [apply Hln, S3|]. left. destruct A3. constructor; auto.
    + change (E_BREAK =? E_DIVERR) with false. cbv iota. split; [exact S3|unfold E_BREAK, E_DIVERR; lia].
  - destruct HX as (I2 & Hc2 & Hdv).
    rewrite (run_err E base s pre p bs o k m c s2 Hf Hd Hx) by (unfold E_CONTINUE; lia).
    destruct (Z.eqb_spec c E_DIVERR) as [->|Hne].
    + specialize (Hdv eq_refl). cbn in Hdv. pose proof (inv_flat E _ s0 s2 base F I2) as F2.
      destruct s2 as [a2 d2 g2 n2 l2]. cbn [ar] in F2.
      destruct (int_callint_eq E base 0 a2 d2 g2 n2 l2 ltac:(lia) F2 (iv_regs _ _ _ I2)) as (a' & Hi & F' & Hs). rewrite Hi.
      split; [|right; split; [apply Hcl, Hdv|eapply enter_vec; exact Hs]].
      pose proof (Hst _ I2) as S2. 
      assert (HU : upto (mkSt a2 d2 g2 n2 l2) (mkSt a2 d2 g2 n2 l2)).
      { apply upto_inv, wf_inv. apply S2. }
      pose proof (int_callint_upto E 0 _ _ HU) as HI. rewrite Hi in HI. destruct HI as [l' HI].
      assert (G : guest_effect (mkSt a2 d2 g2 n2 l2) (mkSt a' d2 g2 n2 l2)).
      { apply inv_effect in HI. destruct HI as [? [] ? ?]. constructor; auto. constructor; auto. }
      constructor.
      * eapply effect_trans; [apply S2|exact G].
      * apply S2.
      * intros H1 H2. destruct S2 as [_ _ S2]. rewrite <- (S2 H1 H2). cbn [ar]. eapply enter_vec; exact Hs.
    + split; [apply Hst, I2|]. split; [exact Hc2|exact Hne].
  - rewrite (run_ub E base s pre p bs o k m r Hf Hd Hx). cbn in HX. apply Hcl; tauto.
Qed.
