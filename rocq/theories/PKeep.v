(** A compositional invariant for everything the emulator executes: what no instruction may
    change, register ranges, memory confinement, the port log, error codes, instruction length. *)
From Verif Require Import Base Cpu Alu Ops Machine Spec PBase PMem PRun PAlu PExec.

(** What a class of instructions is permitted to do. *)
Record perm : Type := mkPerm {
  pm_ctl : bool;          (* change IP or bDontChangeIP *)
  pm_cs : bool;           (* change CS *)
  pm_io : bool;           (* access ports *)
  pm_div : bool;          (* raise a divide error *)
  pm_ub : ub -> Prop      (* undefined behaviour of these kinds *)
}.
(** Host bytes reachable by an access of at most four bytes that starts in a mapped block. *)
Definition reachable (mt : Z -> Z) (x : Z) : Prop := exists b, 0 <= b < 272 /\ mt b <= x < mt b + 4099.

Record inv (P : perm) (s0 s : st) : Prop := mkInv {
  iv_tab : mtab (ar s) = mtab (ar s0);
  iv_hle : hle (ar s) = hle (ar s0);
  iv_cpu : cpu (ar s) = cpu (ar s0);
  iv_dbg : dbg s = dbg s0;
  iv_cnt : icount s = icount s0;
  iv_null : lastnull s = lastnull s0;
  iv_log : exists l, iolog (ar s) = iolog (ar s0) ++ l /\ (pm_io P = false -> l = []);
  iv_dom : forall x, hmem (ar s) x = None <-> hmem (ar s0) x = None;
  iv_mem : forall x, hmem (ar s) x = hmem (ar s0) x \/ reachable (mtab (ar s0)) x;
  iv_byte : forall x b, hmem (ar s) x = Some b -> 0 <= b < 256;
  iv_regs : wf_regs (ar s);
  iv_pc : pm_ctl P = false -> r_ip (ar s) = r_ip (ar s0) /\ d_noip (dc s) = d_noip (dc s0);
  iv_cs : pm_cs P = false -> r_cs (ar s) = r_cs (ar s0);
  iv_off : 0 <= d_ipoff (dc s);
  iv_seg : d_seg (dc s) = -1 \/ 0 <= d_seg (dc s) < 6;
  iv_rep : d_rep (dc s) = 0 \/ d_rep (dc s) = 242 \/ d_rep (dc s) = 243
}.

(** ** FLAGS arithmetic stays within 16 bits *)
Lemma range_bits n x : 0 <= n -> (inrange n x <-> 0 <= x /\ forall i, n <= i -> Z.testbit x i = false).
Proof.
  intros Hn. unfold inrange. split.
  - intros [H1 H2]. split; [exact H1|]. intros i Hi.
    rewrite <- (Z.mod_small x (2 ^ n)) by lia. apply Z.mod_pow2_bits_high. lia.
  - intros [H1 H2]. split; [exact H1|].
    assert (Hm : x mod 2 ^ n = x).
    { apply Z.bits_inj'. intros i Hi. rewrite Z.testbit_mod_pow2 by lia.
      destruct (Z.ltb_spec i n); [reflexivity|]. symmetry. apply H2. lia. }
    rewrite <- Hm. apply Z.mod_pos_bound. apply Z.pow_pos_nonneg; lia.
Qed.
Lemma fl_fclear m f : inrange 16 f -> inrange 16 (fclear m f).
Proof.
  intros H. apply range_bits in H; [|lia]. destruct H as [H0 H]. apply range_bits; [lia|]. unfold fclear. split.
  - apply Z.ldiff_nonneg. auto.
  - intros i Hi. rewrite Z.ldiff_spec, H by lia. reflexivity.
Qed.
Lemma fl_lor m f : inrange 16 m -> inrange 16 f -> inrange 16 (Z.lor f m).
Proof.
  intros Hm H. apply range_bits in H; [|lia]. apply range_bits in Hm; [|lia]. destruct H, Hm. apply range_bits; [lia|]. split.
  - apply Z.lor_nonneg. auto.
  - intros i Hi. rewrite Z.lor_spec, H0, H2 by lia. reflexivity.
Qed.
Lemma fl_lxor m f : inrange 16 m -> inrange 16 f -> inrange 16 (Z.lxor f m).
Proof.
  intros Hm H. apply range_bits in H; [|lia]. apply range_bits in Hm; [|lia]. destruct H, Hm. apply range_bits; [lia|]. split.
  - apply Z.lxor_nonneg. tauto.
  - intros i Hi. rewrite Z.lxor_spec, H0, H2 by lia. reflexivity.
Qed.
Lemma fl_land_r m f : inrange 16 m -> inrange 16 (Z.land f m).
Proof.
  intros Hm. apply range_bits in Hm; [|lia]. destruct Hm. apply range_bits; [lia|]. split.
  - apply Z.land_nonneg. auto.
  - intros i Hi. rewrite Z.land_spec, H0 by lia. apply andb_false_r.
Qed.
Lemma fl_fset b m f : inrange 16 m -> inrange 16 f -> inrange 16 (fset b m f).
Proof. intros. destruct b; [apply fl_lor; auto|auto]. Qed.
Lemma fl_const x : ((0 <=? x) && (x <? 65536)) = true -> inrange 16 x.
Proof. unfold inrange. change (2 ^ 16) with 65536. lia. Qed.
#[export] Hint Resolve fl_fclear fl_lor fl_lxor fl_land_r fl_fset : fl.
#[export] Hint Extern 1 (inrange 16 (_ + _)) => (apply fl_const; reflexivity) : fl.
#[export] Hint Extern 1 (inrange 16 M_CF) => (apply fl_const; reflexivity) : fl.
#[export] Hint Extern 1 (inrange 16 M_PF) => (apply fl_const; reflexivity) : fl.
#[export] Hint Extern 1 (inrange 16 M_AF) => (apply fl_const; reflexivity) : fl.
#[export] Hint Extern 1 (inrange 16 M_ZF) => (apply fl_const; reflexivity) : fl.
#[export] Hint Extern 1 (inrange 16 M_SF) => (apply fl_const; reflexivity) : fl.
#[export] Hint Extern 1 (inrange 16 M_TF) => (apply fl_const; reflexivity) : fl.
#[export] Hint Extern 1 (inrange 16 M_IF) => (apply fl_const; reflexivity) : fl.
#[export] Hint Extern 1 (inrange 16 M_DF) => (apply fl_const; reflexivity) : fl.
#[export] Hint Extern 1 (inrange 16 M_OF) => (apply fl_const; reflexivity) : fl.
#[export] Hint Extern 1 (inrange 16 213) => (apply fl_const; reflexivity) : fl.
Lemma fl_set_comm w v f : inrange 16 f -> inrange 16 (set_comm w v f).
Proof. intros. unfold set_comm. auto 10 with fl. Qed.
Lemma fl_set_cfof b f : inrange 16 f -> inrange 16 (set_cfof b f).
Proof. intros. unfold set_cfof. destruct b; auto with fl. Qed.
#[export] Hint Resolve fl_set_comm fl_set_cfof : fl.
Lemma fl_alu op w d s f : inrange 16 f -> inrange 16 (snd (alu op w d s f)).
Proof.
  intros. unfold alu. destruct op; cbn [alu_core snd]; cbv zeta; apply fl_set_comm;
  unfold add_setflags, sub_flags; cbv zeta; auto 12 with fl.
Qed.
Lemma fl_neg w d f : inrange 16 f -> inrange 16 (snd (alu_neg w d f)).
Proof. intros. unfold alu_neg. cbv zeta. destruct (d =? 0); cbn [snd]; auto 12 with fl. Qed.
Lemma fl_inc w d f : inrange 16 f -> inrange 16 (snd (alu_inc w d f)).
Proof. intros. unfold alu_inc. cbv zeta. cbn [snd]; auto 12 with fl. Qed.
Lemma fl_dec w d f : inrange 16 f -> inrange 16 (snd (alu_dec w d f)).
Proof. intros. unfold alu_dec. cbv zeta. cbn [snd]; auto 12 with fl. Qed.
Lemma fl_shift op w d amt f v f' : inrange 16 f -> sh_apply op w d amt f = Some (v, f') -> inrange 16 f'.
Proof.
  intros Hf H.
  assert (A : forall o, (o = sh_rol w d amt f \/ o = sh_ror w d amt f \/ o = sh_rcl w d amt f \/ o = sh_rcr w d amt f \/
     o = sh_shr w d amt f \/ o = sh_sar w d amt f \/ o = sh_shl w d amt f) -> o = Some (v, f') -> inrange 16 f').
  { clear H. intros o [Ho|[Ho|[Ho|[Ho|[Ho|[Ho|Ho]]]]]]; subst o.
    - intros [= _ <-]. auto 10 with fl.
    - intros [= _ <-]. auto 10 with fl.
    - unfold sh_rcl. destruct (rcl_loop _ _ _ _). intros [= _ <-]. auto 10 with fl.
    - unfold sh_rcr. destruct (rcr_loop _ _ _ _). intros [= _ <-]. auto 10 with fl.
    - unfold sh_shr. cbv zeta. destruct (w <? amt); intros [= _ <-]; auto 10 with fl.
    - unfold sh_sar. cbv zeta. destruct (w <=? amt); intros [= _ <-]; auto 10 with fl.
    - unfold sh_shl. cbv zeta. destruct (w <? amt); [intros [= _ <-]; auto 10 with fl|].
      destruct (w - amt - 1 <? 0); [discriminate|]. intros [= _ <-]; auto 10 with fl. }
  apply (A (sh_apply op w d amt f)); [|exact H]. unfold sh_apply.
  destruct op as [|[[[]|[]|]|[[]|[]|]|]|]; auto 10.
Qed.
Lemma fl_aaa al ah f : inrange 16 f -> inrange 16 (snd (bcd_aaa al ah f)).
Proof. intros. unfold bcd_aaa. destruct (_ || _); cbn [snd]; auto with fl. Qed.
Lemma fl_aas al ah f : inrange 16 f -> inrange 16 (snd (bcd_aas al ah f)).
Proof. intros. unfold bcd_aas. destruct (_ || _); cbn [snd]; auto with fl. Qed.
Lemma fl_daa al f : inrange 16 f -> inrange 16 (snd (bcd_daa al f)).
Proof. intros. unfold bcd_daa. cbv zeta. destruct (_ || ftest M_AF _), (_ || ftest M_CF _); cbn [snd]; auto 10 with fl. Qed.
Lemma fl_das al f : inrange 16 f -> inrange 16 (snd (bcd_das al f)).
Proof. intros. unfold bcd_das. cbv zeta. destruct (_ || ftest M_AF _), (_ || ftest M_CF _); cbn [snd]; auto 10 with fl. Qed.

(** Bytes loaded are in range. *)
Lemma load_bytes_range n h : (forall x b, h x = Some b -> 0 <= b < 256) ->
  forall p v, load_bytes n h p = Some v -> 0 <= v < 2 ^ (8 * Z.of_nat n).
Proof.
  intros Hb. induction n as [|n IH]; intros p v H; cbn [load_bytes] in H.
  - injection H as <-. cbn. lia.
  - destruct (h p) as [b|] eqn:Eb; [|discriminate]. destruct (load_bytes n h (p + 1)) as [r|] eqn:Er; [|discriminate].
    injection H as <-. specialize (IH _ _ Er). specialize (Hb _ _ Eb).
    replace (8 * Z.of_nat (S n)) with (8 + 8 * Z.of_nat n) by lia. rewrite Z.pow_add_r by lia.
    change (2 ^ 8) with 256. nia.
Qed.

Section Keep.
Context (E : env) (P : perm) (s0 : st).
(** Either the memory map is complete, or faulting accesses are permitted. *)
Context (Hmem : (exists base, flat E base (ar s0)) \/ (pm_ub P UbDeref /\ pm_ub P UbUninit)).
Notation I := (inv P s0).

Definition keeps {X} (n : Z) (Q : X -> Prop) (m : M X) : Prop := forall s, I s ->
  match m s with
  | Ok x s' => I s' /\ d_ipoff (dc s) <= d_ipoff (dc s') <= d_ipoff (dc s) + n /\ Q x
  | Err c s' => I s' /\ 2 <= c <= 8 /\ (c = 5 -> pm_div P = true)
  | UB r => pm_ub P r
  | Fuel => False
  end.
Lemma keeps_run {X} n (Q : X -> Prop) m : keeps n Q m <-> forall s, I s ->
  match m s with
  | Ok x s' => I s' /\ d_ipoff (dc s) <= d_ipoff (dc s') <= d_ipoff (dc s) + n /\ Q x
  | Err c s' => I s' /\ 2 <= c <= 8 /\ (c = 5 -> pm_div P = true)
  | UB r => pm_ub P r
  | Fuel => False
  end.
Proof. reflexivity. Qed.
Definition any {X} (x : X) : Prop := True.

Lemma keeps_bind {X Y} c n (Q : X -> Prop) (R : Y -> Prop) m f :
  keeps c Q m -> (forall x, Q x -> keeps (n - c) R (f x)) -> keeps n R (bind m f).
Proof.
  intros Hm Hf s Hs. specialize (Hm s Hs). unfold bind. destruct (m s) as [x s1|c1 s1|r|]; auto.
  destruct Hm as (I1 & L1 & Q1). specialize (Hf x Q1 s1 I1). destruct (f x s1) as [y s2|c2 s2|r|]; auto.
  destruct Hf as (I2 & L2 & R2). split; [exact I2|]. split; [lia|exact R2].
Qed.
Lemma keeps_weak {X} n n' (Q Q' : X -> Prop) m : keeps n Q m -> n <= n' -> (forall x, Q x -> Q' x) -> keeps n' Q' m.
Proof.
  intros Hm Hn HQ s Hs. specialize (Hm s Hs). destruct (m s); auto. destruct Hm as (? & ? & ?).
  split; [assumption|]. split; [lia|auto].
Qed.
Lemma keeps_ret {X} n (Q : X -> Prop) x : 0 <= n -> Q x -> keeps n Q (ret x).
Proof. intros Hn HQ s Hs. cbn. split; [exact Hs|]. split; [lia|exact HQ]. Qed.
Lemma keeps_err {X} n (Q : X -> Prop) c : 2 <= c <= 8 /\ (c = 5 -> pm_div P = true) -> keeps n Q (err c).
Proof. intros Hc s Hs. cbn. auto. Qed.
Lemma keeps_undef {X} n (Q : X -> Prop) r : pm_ub P r -> keeps n Q (undef r).
Proof. intros Hr s Hs. exact Hr. Qed.
Lemma keeps_getA {X} (f : arch -> X) (Q : X -> Prop) : (forall s, I s -> Q (f (ar s))) -> keeps 0 Q (getA f).
Proof. intros H s Hs. cbn. split; [exact Hs|]. split; [lia|]. apply H, Hs. Qed.
Lemma keeps_getD {X} (f : dec -> X) (Q : X -> Prop) : (forall s, I s -> Q (f (dc s))) -> keeps 0 Q (getD f).
Proof. intros H s Hs. cbn. split; [exact Hs|]. split; [lia|]. apply H, Hs. Qed.

(** ** Primitive updates *)
Ltac inv_ar := intros; match goal with Hs : inv _ _ _ |- _ => destruct Hs end;
  constructor; cbn in *; auto.
Lemma inv_gprs s v : I s -> 0 <= v < 2 ^ 256 -> I (set_ar (a_gprs v (ar s)) s).
Proof. inv_ar. destruct iv_regs0. constructor; cbn; auto. Qed.
Lemma inv_flags s v : I s -> inrange 16 v -> I (set_ar (a_flags v (ar s)) s).
Proof. inv_ar. destruct iv_regs0. constructor; cbn; auto. Qed.
Lemma keeps_get_gpr pos w : 0 <= w -> keeps 0 (inrange w) (get_gpr pos w).
Proof. intros Hw. apply keeps_getA. intros. apply getf_range, Hw. Qed.
Lemma keeps_set_gpr pos w v : 0 <= pos -> 0 <= w -> pos + w <= 256 -> keeps 0 any (set_gpr pos w v).
Proof.
  intros H1 H2 H3 s Hs. cbn. split; [|split; [lia|exact Logic.I]].
  apply inv_gprs; [exact Hs|]. apply setf_range; auto. apply (iv_regs _ _ _ Hs).
Qed.
Lemma keeps_getflags : keeps 0 (inrange 16) getflags.
Proof. apply keeps_getA. intros s Hs. apply (iv_regs _ _ _ Hs). Qed.
Lemma keeps_set_flags v : inrange 16 v -> keeps 0 any (set_flags v).
Proof. intros Hv s Hs. cbn. split; [|split; [lia|exact Logic.I]]. apply inv_flags; auto. Qed.
Lemma keeps_upd_flags g : (forall f, inrange 16 f -> inrange 16 (g f)) -> keeps 0 any (upd_flags g).
Proof.
  intros H. unfold upd_flags. eapply keeps_bind; [apply keeps_getflags|]. intros f Hf.
  apply keeps_set_flags; auto.
Qed.
Lemma keeps_set_ip v : pm_ctl P = true -> keeps 0 any (set_ip v).
Proof.
  intros Hc s Hs. cbn. split; [|split; [lia|exact Logic.I]]. destruct Hs. constructor; cbn; auto; [|congruence].
  destruct iv_regs0. constructor; cbn; auto. apply wrap_range; lia.
Qed.
Lemma keeps_set_cs v : pm_cs P = true -> keeps 0 any (set_cs v).
Proof.
  intros Hc s Hs. cbn. split; [|split; [lia|exact Logic.I]]. destruct Hs. constructor; cbn; auto; [|congruence].
  destruct iv_regs0. constructor; cbn; auto. apply wrap_range; lia.
Qed.
Lemma keeps_dont : pm_ctl P = true -> keeps 0 any dont_change_ip.
Proof.
  intros Hc s Hs. cbn. split; [|split; [lia|exact Logic.I]]. destruct Hs. constructor; cbn; auto; congruence.
Qed.
Lemma keeps_rep0 : keeps 0 any (upd_dc (dd_rep 0)).
Proof.
  intros s Hs. cbn. split; [|split; [lia|exact Logic.I]]. destruct Hs. constructor; cbn; auto.
Qed.
Lemma inv_off s o : I s -> 0 <= o -> I (set_dc (dd_ipoff o (dc s)) s).
Proof. inv_ar. Qed.
Lemma keeps_opw : keeps 0 (fun w => w = 16 \/ w = 32) opw.
Proof. intros s Hs. cbn. split; [exact Hs|]. split; [lia|]. destruct (d_op (dc s)); auto. Qed.

(** ** Segments *)
Lemma keeps_getseg c : 0 <= c < 6 \/ pm_ub P UbSegReg -> keeps 0 (inrange 16) (getseg c).
Proof.
  intros Hc s Hs. unfold getseg. destruct (sreg_of c (ar s)) as [v|] eqn:Hv.
  - split; [exact Hs|]. split; [lia|]. destruct (iv_regs _ _ _ Hs).
    unfold sreg_of in Hv. destruct c as [|[[[]|[]|]|[[]|[]|]|]|]; try discriminate; injection Hv as <-; auto.
  - destruct Hc as [Hc|Hc]; [|exact Hc]. rewrite sreg_ok in Hv by auto. discriminate.
Qed.
Lemma keeps_chkseg c : 0 <= c < 6 \/ pm_ub P UbSegReg -> keeps 0 any (chkseg c).
Proof.
  intros Hc s Hs. unfold chkseg. destruct (sreg_of c (ar s)) as [v|] eqn:Hv.
  - split; [exact Hs|]. split; [lia|exact Logic.I].
  - destruct Hc as [Hc|Hc]; [|exact Hc]. rewrite sreg_ok in Hv by auto. discriminate.
Qed.
Lemma keeps_setseg c v : 0 <= c < 6 \/ pm_ub P UbSegReg -> c <> 1 \/ pm_cs P = true ->
  keeps 0 any (setseg c v).
Proof.
  intros Hc H1 s Hs. unfold setseg. pose proof (wrap_range 16 v ltac:(lia)) as Hw.
  destruct (sreg_set c (wrap 16 v) (ar s)) as [a|] eqn:Ha.
  - split; [|split; [cbn; lia|exact Logic.I]].
    unfold sreg_set in Ha. destruct Hs. destruct iv_regs0.
    destruct c as [|[[[]|[]|]|[[]|[]|]|]|]; try discriminate; injection Ha as <-;
    (constructor; cbn; auto; try (constructor; cbn; auto; fail); try (intros Hf; destruct H1; [lia|congruence])).
  - destruct Hc as [Hc|Hc]; [|exact Hc].
    assert (c = 0 \/ c = 1 \/ c = 2 \/ c = 3 \/ c = 4 \/ c = 5) as Hd by lia.
    destruct Hd as [-> | [-> | [-> | [-> | [-> | ->]]]]]; discriminate.
Qed.
Lemma keeps_data_seg : keeps 0 (inrange 16) data_seg.
Proof.
  unfold data_seg. eapply keeps_bind; [apply (keeps_getD d_seg (fun x => x = -1 \/ 0 <= x < 6)); intros s Hs; apply Hs|].
  cbn beta; intros x Hx. apply keeps_getseg. left. destruct (Z.eqb_spec x (-1)); unfold S_DS; lia.
Qed.
Lemma keeps_ea_segment m nd : keeps 0 (inrange 16) (ea_segment m nd).
Proof.
  unfold ea_segment. eapply keeps_bind; [apply (keeps_getD d_seg (fun x => x = -1 \/ 0 <= x < 6)); intros s Hs; apply Hs|].
  cbn beta; intros x Hx. apply keeps_getseg. left. destruct (Z.eqb_spec x (-1)); [|lia].
  destruct (_ && _); unfold S_SS, S_DS; lia.
Qed.

(** ** Host memory *)
Definition mptr (p : Z) : Prop := exists b, 0 <= b < 272 /\ mtab (ar s0) b <= p < mtab (ar s0) b + 4096.
Definition ptr_ok (q : ptr) : Prop :=
  match q with PGpr pos => 0 <= pos /\ pos + 32 <= 256 | PMem p => mptr p end.
(** With a complete map, a pointer to a linear address of which [w] bits fit. *)
Definition lptr (w p : Z) : Prop :=
  mptr p /\ forall base, flat E base (ar s0) -> exists x, p = base + x /\ 0 <= x /\ x + w / 8 <= 1114112.

Lemma flat_dom base s : flat E base (ar s0) -> I s -> forall x, 0 <= x < 1114112 -> hmem (ar s) (base + x) <> None.
Proof.
  intros F Hs x Hx Hn. apply (iv_dom _ _ _ Hs) in Hn. destruct (fl_mem _ _ _ F x Hx) as (b & Hb & _). congruence.
Qed.
Lemma load_bytes_def n h : forall p, (forall i, 0 <= i < Z.of_nat n -> h (p + i) <> None) -> exists v, load_bytes n h p = Some v.
Proof.
  induction n as [|n IH]; intros p H; cbn [load_bytes]; [eauto|].
  destruct (h p) as [b|] eqn:Eb.
  - destruct (IH (p + 1)) as [r Hr].
    + intros i Hi. replace (p + 1 + i) with (p + (1 + i)) by lia. apply H. lia.
    + rewrite Hr. eauto.
  - exfalso. apply (H 0); [lia|]. rewrite Z.add_0_r. exact Eb.
Qed.
Lemma valid_bytes_def n h : forall p, (forall i, 0 <= i < Z.of_nat n -> h (p + i) <> None) -> valid_bytes n h p = true.
Proof.
  induction n as [|n IH]; intros p H; cbn [valid_bytes]; [reflexivity|].
  destruct (h p) as [b|] eqn:Eb.
  - apply IH. intros i Hi. replace (p + 1 + i) with (p + (1 + i)) by lia. apply H. lia.
  - exfalso. apply (H 0); [lia|]. rewrite Z.add_0_r. exact Eb.
Qed.
Lemma valid_bytes_inv n h : forall p, valid_bytes n h p = true -> forall i, 0 <= i < Z.of_nat n -> h (p + i) <> None.
Proof.
  induction n as [|n IH]; intros p H i Hi; [lia|]. cbn [valid_bytes] in H. destruct (h p) as [b|] eqn:Eb; [|discriminate].
  destruct (Z.eq_dec i 0) as [->|Hne]; [rewrite Z.add_0_r; congruence|].
  replace (p + i) with (p + 1 + (i - 1)) by lia. apply (IH (p + 1)); auto. lia.
Qed.
Lemma hload_gen w p s : I s -> width w ->
  match hload w p s with Ok v s' => s' = s /\ inrange w v | UB r => r = UbDeref | _ => False end.
Proof.
  intros Hs Hw. unfold hload. destruct (load_bytes (nbytes w) (hmem (ar s)) p) as [v|] eqn:Hl; [|reflexivity].
  split; [reflexivity|]. apply load_bytes_range in Hl; [|apply (iv_byte _ _ _ Hs)].
  rewrite nbytes_w in Hl by auto. destruct (width_div w Hw) as [_ He]. rewrite He in Hl. exact Hl.
Qed.
Lemma keeps_hload w p : width w -> pm_ub P UbDeref -> keeps 0 (inrange w) (hload w p).
Proof.
  intros Hw Hu s Hs. pose proof (hload_gen w p s Hs Hw) as H. destruct (hload w p s); try contradiction.
  - destruct H as [-> H]. split; [exact Hs|]. split; [lia|exact H].
  - subst r. exact Hu.
Qed.
Lemma keeps_hload_l w p : width w -> lptr w p -> keeps 0 (inrange w) (hload w p).
Proof.
  intros Hw [Hp Hl] s Hs. destruct Hmem as [[base F]|[Hu _]]; [|apply keeps_hload; auto].
  pose proof (hload_gen w p s Hs Hw) as H. destruct (Hl base F) as (x & -> & Hx1 & Hx2).
  destruct (load_bytes_def (nbytes w) (hmem (ar s)) (base + x)) as [v Hv].
  { intros i Hi. rewrite nbytes_w in Hi by auto. rewrite <- Z.add_assoc. apply flat_dom; auto. lia. }
  unfold hload in *. rewrite Hv in *. split; [exact Hs|]. split; [lia|apply H].
Qed.
Lemma store_inv w p v s : I s -> width w -> mptr p -> valid_bytes (nbytes w) (hmem (ar s)) p = true ->
  I (set_ar (a_hmem (store_bytes (nbytes w) p v (hmem (ar s))) (ar s)) s).
Proof.
  intros Hs Hw Hp Hv. pose proof (valid_bytes_inv _ _ _ Hv) as Hd. rewrite nbytes_w in Hd by auto.
  destruct Hs. constructor; cbn; auto.
  - intros x. unfold store_bytes. rewrite nbytes_w by auto.
    destruct ((p <=? x) && (x <? p + w / 8)) eqn:Hx; [|apply iv_dom0].
    split; [discriminate|]. intros Hn. apply iv_dom0 in Hn. exfalso. apply (Hd (x - p)); [lia|].
    replace (p + (x - p)) with x by lia. exact Hn.
  - intros x. unfold store_bytes. rewrite nbytes_w by auto.
    destruct ((p <=? x) && (x <? p + w / 8)) eqn:Hx; [|apply iv_mem0]. right.
    destruct Hp as (b & Hb & Hpb). exists b. split; [exact Hb|]. destruct (width_div w Hw). lia.
  - intros x b. unfold store_bytes. destruct ((p <=? x) && _); [|apply iv_byte0]. intros [= <-]. apply Z.mod_pos_bound. lia.
  - destruct iv_regs0. constructor; cbn; auto.
Qed.
Lemma keeps_hstore w p v : width w -> pm_ub P UbDeref -> mptr p -> keeps 0 any (hstore w p v).
Proof.
  intros Hw Hu Hp s Hs. unfold hstore. destruct (valid_bytes (nbytes w) (hmem (ar s)) p) eqn:Hv; [|exact Hu].
  split; [|split; [cbn; lia|exact Logic.I]]. apply store_inv; auto.
Qed.
Lemma keeps_hstore_l w p v : width w -> lptr w p -> keeps 0 any (hstore w p v).
Proof.
  intros Hw [Hp Hl] s Hs. destruct Hmem as [[base F]|[Hu _]]; [|apply keeps_hstore; auto].
  destruct (Hl base F) as (x & Hx & Hx1 & Hx2).
  assert (Hv : valid_bytes (nbytes w) (hmem (ar s)) p = true).
  { subst p. apply valid_bytes_def. intros i Hi. rewrite nbytes_w in Hi by auto. rewrite <- Z.add_assoc. apply flat_dom; auto. lia. }
  unfold hstore. rewrite Hv. split; [|split; [cbn; lia|exact Logic.I]]. apply store_inv; auto.
Qed.
Lemma keeps_load w q : width w -> pm_ub P UbDeref -> ptr_ok q -> keeps 0 (inrange w) (load w q).
Proof.
  intros Hw Hu Hq. destruct q; cbn [load].
  - apply keeps_get_gpr, wpos, Hw.
  - apply keeps_hload; auto.
Qed.
Lemma keeps_store w q v : width w -> pm_ub P UbDeref -> ptr_ok q -> keeps 0 any (store w q v).
Proof.
  intros Hw Hu Hq. destruct q as [pos|p]; cbn [store ptr_ok] in *.
  - apply keeps_set_gpr; try lia; destruct Hw as [->|[->| ->]]; lia.
  - apply keeps_hstore; auto.
Qed.
(** Register operands need no permission. *)
Lemma keeps_store_r w pos v : width w -> 0 <= pos -> pos + 32 <= 256 -> keeps 0 any (store w (PGpr pos) v).
Proof. intros Hw H1 H2. cbn [store]. apply keeps_set_gpr; try lia; destruct Hw as [->|[->| ->]]; lia. Qed.

(** ** Segmented access *)
Lemma getptr_gen seg ofs s : I s -> inrange 16 seg ->
  match getptr E seg ofs s with
  | Ok p s' => s' = s /\ mptr p /\
      (forall base, flat E base (ar s0) -> p = base + wrap 32 (seg * 16 + ofs)) /\ wrap 32 (seg * 16 + ofs) < 1114112
  | Err c s' => s' = s /\ c = E_BADMEM /\ (forall base, ~ flat E base (ar s0))
  | UB r => r = UbMapIndex /\ 1114112 <= wrap 32 (seg * 16 + ofs)
  | Fuel => False
  end.
Proof.
  intros Hs Hseg. unfold getptr. cbv zeta. set (addr := wrap 32 (seg * 16 + ofs)).
  assert (Ha : 0 <= addr) by (apply (wrap_range 32); lia).
  destruct (Z.ltb_spec (addr / 4096) 272) as [Hb|Hb]; [|split; [reflexivity|lia]].
  destruct (null_check E && negb (zero_null_ok E && (addr / 4096 =? 0)) && (mtab (ar s) (addr / 4096) =? 0)) eqn:Hn.
  - split; [reflexivity|]. split; [reflexivity|]. intros base F.
    rewrite (iv_tab _ _ _ Hs) in Hn. rewrite (fl_tab _ _ _ F) in Hn by lia.
    pose proof (fl_base _ _ _ F). pose proof (fl_null _ _ _ F) as H1.
    apply andb_true_iff in Hn as [Hn H2]. apply andb_true_iff in Hn as [Hn1 Hn3].
    assert (base = 0) by lia. specialize (H1 Hn1 H0). rewrite H1 in Hn3. cbn [andb negb] in Hn3. lia.
  - split; [reflexivity|]. rewrite (iv_tab _ _ _ Hs). split; [exists (addr / 4096); lia|]. split; [|lia].
    intros base F. rewrite (fl_tab _ _ _ F) by lia. lia.
Qed.
Lemma keeps_getptr seg ofs : inrange 16 seg -> pm_ub P UbMapIndex ->
  keeps 0 mptr (getptr E seg ofs).
Proof.
  intros Hseg Hu s Hs. pose proof (getptr_gen seg ofs s Hs Hseg) as H. destruct (getptr E seg ofs s); try contradiction.
  - destruct H as (-> & Hp & _). split; [exact Hs|]. split; [lia|exact Hp].
  - destruct H as (-> & -> & _). split; [exact Hs|]. unfold E_BADMEM. lia.
  - destruct H as [-> _]. exact Hu.
Qed.
Lemma keeps_getptr16 w seg ofs : inrange 16 seg -> inrange 16 ofs -> width w -> keeps 0 (lptr w) (getptr E seg ofs).
Proof.
  intros Hseg Ho Hw s Hs. pose proof (getptr_gen seg ofs s Hs Hseg) as H. unfold inrange in *.
  change (2 ^ 16) with 65536 in *.
  assert (Hwr : wrap 32 (seg * 16 + ofs) = seg * 16 + ofs) by (apply wrap_small; unfold inrange; lia).
  rewrite Hwr in H.
  destruct (getptr E seg ofs s); try contradiction.
  - destruct H as (-> & Hp & Hf & _). split; [exact Hs|]. split; [lia|]. split; [exact Hp|].
    intros base F. exists (seg * 16 + ofs). split; [apply Hf, F|]. destruct (width_div w Hw). lia.
  - destruct H as (-> & -> & _). split; [exact Hs|]. unfold E_BADMEM. lia.
  - destruct H as [-> H]. lia.
Qed.
Lemma keeps_rd w seg ofs : width w -> inrange 16 seg -> keeps 0 (inrange w) (rd E w seg ofs).
Proof.
  intros Hw Hs. unfold rd. eapply keeps_bind; [apply keeps_getptr16; eauto; apply wrap_range; lia|].
  intros p Hp. apply keeps_hload_l; auto.
Qed.
Lemma keeps_wr w seg ofs v : width w -> inrange 16 seg -> keeps 0 any (wr E w seg ofs v).
Proof.
  intros Hw Hs. unfold wr. eapply keeps_bind; [apply keeps_getptr16; eauto; apply wrap_range; lia|].
  intros p Hp. apply keeps_hstore_l; auto.
Qed.
Lemma keeps_seg f : (forall a, wf_regs a -> inrange 16 (f a)) -> keeps 0 (inrange 16) (getA f).
Proof. intros H. apply keeps_getA. intros s Hs. apply H, Hs. Qed.
Lemma keeps_getD_any {X} (f : dec -> X) : keeps 0 any (getD f).
Proof. apply keeps_getD. intros. exact Logic.I. Qed.
Lemma keeps_getA_any {X} (f : arch -> X) : keeps 0 any (getA f).
Proof. apply keeps_getA. intros. exact Logic.I. Qed.

(** ** Instruction fetch *)
Lemma keeps_adv k : 0 <= k -> keeps k any (upd_dc (fun d => dd_ipoff (d_ipoff d + k) d)).
Proof.
  intros Hk s Hs. cbn. split; [|split; [lia|exact Logic.I]]. apply (inv_off s _ Hs). pose proof (iv_off _ _ _ Hs). lia.
Qed.
Lemma keeps_fetch w : width w -> keeps (w / 8) (inrange w) (fetch E w).
Proof.
  intros Hw. unfold fetch. eapply keeps_bind; [apply keeps_seg; intros a []; auto|]. intros cs Hcs.
  eapply keeps_bind; [apply keeps_getA_any|]. intros ip _. eapply keeps_bind; [apply keeps_getD_any|]. intros o _.
  eapply keeps_bind; [apply keeps_rd; auto|]. intros v Hv.
  eapply keeps_bind; [apply keeps_adv; destruct (width_div w Hw); lia|]. intros _ _. apply keeps_ret; [lia|exact Hv].
Qed.
Lemma keeps_fetch8 : keeps 1 (inrange 8) (fetch8 E). Proof. apply (keeps_fetch 8 width8). Qed.
Lemma keeps_fetch16 : keeps 2 (inrange 16) (fetch16 E). Proof. apply (keeps_fetch 16 width16). Qed.
Lemma keeps_fetch32 : keeps 4 (inrange 32) (fetch32 E). Proof. apply (keeps_fetch 32 width32). Qed.
Lemma keeps_fetch8s : keeps 1 any (fetch8s E).
Proof. unfold fetch8s. eapply keeps_bind; [apply keeps_fetch8|]. intros. apply keeps_ret; [lia|exact Logic.I]. Qed.

Definition modrm_ok (m : modrm) : Prop := 0 <= m_rrr m < 8 /\ 0 <= m_mmm m < 8.
Lemma keeps_get_modrm : keeps 1 modrm_ok (get_modrm E).
Proof.
  unfold get_modrm. eapply keeps_bind; [apply keeps_fetch8|]. intros b _. apply keeps_ret; [lia|].
  unfold modrm_ok, modrm_of. cbn. lia.
Qed.
Lemma fetch_flat_ok w base s : flat E base (ar s0) -> I s -> width w -> exists v s', fetch E w s = Ok v s'.
Proof.
  intros F Hs Hw. unfold fetch, bind at 1. unfold getA at 1, gets. unfold bind at 1. unfold getA, gets. unfold bind at 1. unfold getD, gets.
  unfold bind at 1. unfold rd, bind at 1.
  pose proof (getptr_gen (r_cs (ar s)) (wrap 16 (r_ip (ar s) + d_ipoff (dc s))) s Hs ltac:(apply (iv_regs _ _ _ Hs))) as H.
  pose proof (wf_cs _ (iv_regs _ _ _ Hs)) as Hcs. pose proof (wrap_range 16 (r_ip (ar s) + d_ipoff (dc s)) ltac:(lia)) as Ho.
  unfold inrange in *. change (2 ^ 16) with 65536 in *.
  rewrite (wrap_small 32) in H by (unfold inrange; lia).
  destruct (getptr E (r_cs (ar s)) (wrap 16 (r_ip (ar s) + d_ipoff (dc s))) s) as [p s1|c s1|r|]; try contradiction.
  - destruct H as (-> & Hp & Hf & _). rewrite (Hf base F).
    destruct (load_bytes_def (nbytes w) (hmem (ar s)) (base + (r_cs (ar s) * 16 + wrap 16 (r_ip (ar s) + d_ipoff (dc s))))) as [v Hv].
    { intros i Hi. rewrite nbytes_w in Hi by auto. rewrite <- Z.add_assoc. apply flat_dom; auto.
      destruct (width_div w Hw). lia. }
    unfold hload. rewrite Hv. cbn. eauto.
  - destruct H as (_ & _ & H). exfalso. apply (H base F).
  - destruct H as [_ H]. lia.
Qed.
Lemma keeps_nocheck : keeps 1 modrm_ok (get_modrm_nocheck E).
Proof.
  intros s Hs. pose proof (keeps_get_modrm s Hs) as H. unfold get_modrm_nocheck.
  destruct (get_modrm E s) as [m s1|c s1|r|] eqn:Hg; auto.
  destruct Hmem as [[base F]|[_ Hu]]; [|exact Hu].
  unfold get_modrm, fetch8, bind in Hg. destruct (fetch_flat_ok 8 base s F Hs width8) as (v & s' & Hf).
  rewrite Hf in Hg. discriminate.
Qed.
(** Reading a byte and stepping back. *)
Lemma back_keeps {X Y} (m : M X) (Q : X -> Prop) (R : Y -> Prop) (g : X -> Y) :
  keeps 1 Q m -> (forall s x s', m s = Ok x s' -> I s -> d_ipoff (dc s') = d_ipoff (dc s) + 1) ->
  (forall x, Q x -> R (g x)) ->
  keeps 0 R (x <- m ;; upd_dc (fun d => dd_ipoff (d_ipoff d - 1) d) ;;; ret (g x)).
Proof.
  intros Hm H1 HQ s Hs. specialize (Hm s Hs). specialize (H1 s). unfold bind at 1.
  destruct (m s) as [x s1|c s1|r|]; auto. destruct Hm as (I1 & L1 & Q1). specialize (H1 _ _ eq_refl Hs). cbn.
  split; [|split; [lia|auto]]. apply (inv_off s1 _ I1). pose proof (iv_off _ _ _ Hs). lia.
Qed.
Lemma fetch_off w s v s' : fetch E w s = Ok v s' -> d_ipoff (dc s') = d_ipoff (dc s) + w / 8.
Proof.
  unfold fetch, bind, getA, getD, gets, rd, bind. 
  destruct (getptr E (r_cs (ar s)) _ s) as [p s1|c s1|r|] eqn:Hg; try discriminate.
  assert (s1 = s) as ->.
  { unfold getptr in Hg. cbv zeta in Hg. destruct (_ <? 272); [|discriminate]. destruct (_ && _ && _); [discriminate|]. congruence. }
  unfold hload. destruct (load_bytes _ _ _); [|discriminate]. cbn. intros [= _ <-]. reflexivity.
Qed.
Lemma keeps_peek8 : keeps 0 (inrange 8) (peek8 E).
Proof.
  unfold peek8. apply (back_keeps (fetch8 E) (inrange 8) (inrange 8) (fun b => b)); auto.
  - apply keeps_fetch8.
  - intros s x s' H _. apply fetch_off in H. exact H.
Qed.
Lemma keeps_op_param e : 0 <= e_arg e < 8 -> keeps 0 (fun k => 0 <= k < 8) (op_param E e).
Proof.
  intros He. unfold op_param. destruct (e_names e); [|apply keeps_ret; [lia|exact He]].
  apply (back_keeps (get_modrm_nocheck E) modrm_ok (fun k => 0 <= k < 8) m_rrr).
  - apply keeps_nocheck.
  - intros s x s' H _. unfold get_modrm_nocheck, get_modrm, fetch8, bind in H.
    destruct (fetch E 8 s) as [v s1|c s1|r|] eqn:Hf; try discriminate. cbn in H. injection H as _ <-.
    apply fetch_off in Hf. exact Hf.
  - intros m [Hm _]. exact Hm.
Qed.

(** ** Effective addresses *)
Ltac kb := eapply keeps_bind.
Ltac kint := intros; try lia.
Lemma keeps_getW r : keeps 0 (inrange 16) (getW r).
Proof. apply keeps_get_gpr. lia. Qed.
Lemma keeps_getDw r : keeps 0 (inrange 32) (getDw r).
Proof. apply keeps_get_gpr. lia. Qed.
Lemma keeps_dofunc m nd d : keeps 2 (fun so => inrange 16 (fst so)) (dofunc E m nd d).
Proof.
  unfold dofunc. kb; [apply keeps_ea_segment|]. intros sg Hsg.
  assert (Ha : keeps 2 any (match m with
           | 0 => b <- getW R_BX ;; i <- getW R_SI ;; ret (b + i)
           | 1 => b <- getW R_BX ;; i <- getW R_DI ;; ret (b + i)
           | 2 => b <- getW R_BP ;; i <- getW R_SI ;; ret (b + i)
           | 3 => b <- getW R_BP ;; i <- getW R_DI ;; ret (b + i)
           | 4 => getW R_SI
           | 5 => getW R_DI
           | 6 => if nd then d <- fetch16 E ;; ret (wrap 32 (sgn 16 d)) else getW R_BP
           | 7 => getW R_BX
           | _ => err E_BUG
           end)).
  { assert (H2 : forall r1 r2, keeps 2 any (b <- getW r1 ;; i <- getW r2 ;; ret (b + i))).
    { intros. kb; [apply keeps_getW|]. intros. kb; [apply keeps_getW|]. intros. apply keeps_ret; [lia|exact Logic.I]. }
    assert (H1 : forall r, keeps 2 any (getW r)).
    { intros. eapply keeps_weak; [apply keeps_getW|lia|intros; exact Logic.I]. }
    assert (H3 : keeps 2 any (d <- fetch16 E ;; ret (wrap 32 (sgn 16 d)))).
    { kb; [apply keeps_fetch16|]. intros. apply keeps_ret; [lia|exact Logic.I]. }
    destruct m as [|[[[]|[]|]|[[]|[]|]|]|]; auto; try (apply keeps_err; unfold E_BUG; lia). destruct nd; auto. }
  kb; [exact Ha|]. intros a _. apply keeps_ret; [lia|]. exact Hsg.
Qed.
Lemma keeps_sib_index i : keeps 0 any (sib_index i).
Proof.
  unfold sib_index. destruct (i =? 4); [apply keeps_ret; [lia|exact Logic.I]|].
  eapply keeps_weak; [apply keeps_getDw|lia|intros; exact Logic.I].
Qed.
Lemma keeps_dofunc32 m (nd : bool) d : keeps (if nd then 5 else 1) (fun so => inrange 16 (fst so)) (dofunc32 E m nd d).
Proof.
  unfold dofunc32. set (lim := if nd then 5 else 1). kb; [apply keeps_ea_segment|]. intros sg Hsg.
  match goal with |- keeps _ _ (bind ?a _) => assert (Ha : keeps lim any a) end.
  { assert (H1 : forall k r, 0 <= k -> keeps k any (getDw r)).
    { intros. eapply keeps_weak; [apply keeps_getDw|lia|intros; exact Logic.I]. }
    assert (Hl : 1 <= lim) by (unfold lim; destruct nd; lia).
    destruct m as [|[[[]|[]|]|[[]|[]|]|]|]; try (apply keeps_err; unfold E_BUG; lia); try (apply H1; lia).
    - destruct nd; [|apply H1; lia]. eapply keeps_weak; [apply keeps_fetch32|unfold lim; lia|intros; exact Logic.I].
    - kb; [apply keeps_fetch8|]. intros sib _. kb; [apply keeps_sib_index|]. intros i _. cbv zeta.
      destruct (sib mod 8 =? 5).
      + destruct nd.
        * kb; [apply keeps_fetch32|]. intros. apply keeps_ret; [unfold lim; lia|exact Logic.I].
        * kb; [apply (H1 0); lia|]. intros. apply keeps_ret; [unfold lim; lia|exact Logic.I].
      + kb; [apply (H1 0); lia|]. intros. apply keeps_ret; [lia|exact Logic.I]. }
  kb; [exact Ha|]. intros a _. apply keeps_ret; [lia|]. exact Hsg.
Qed.
Lemma keeps_get_mmm m : keeps 5 (fun so => inrange 16 (fst so)) (get_mmm E m).
Proof.
  unfold get_mmm. kb; [apply (keeps_getD_any d_addr)|]. intros a32 _.
  destruct a32; destruct (m_mod m) as [|[[]|[]|]|]; try (apply keeps_err; unfold E_BUG; lia).
  - eapply keeps_weak; [apply keeps_dofunc32|lia|auto].
  - kb; [apply keeps_fetch32|]. intros. eapply keeps_weak; [apply keeps_dofunc32|lia|auto].
  - kb; [apply keeps_fetch8s|]. intros. eapply keeps_weak; [apply keeps_dofunc32|lia|auto].
  - eapply keeps_weak; [apply keeps_dofunc|lia|auto].
  - kb; [apply keeps_fetch16|]. intros. eapply keeps_weak; [apply keeps_dofunc|lia|auto].
  - kb; [apply keeps_fetch8s|]. intros. eapply keeps_weak; [apply keeps_dofunc|lia|auto].
Qed.
Lemma regB_ok n : 0 <= n < 8 -> ptr_ok (regB n).
Proof. intros. unfold regB. destruct (Z.leb_spec 4 n); cbn; lia. Qed.
Lemma regW_ok n : 0 <= n < 8 -> ptr_ok (regW n).
Proof. intros. cbn. lia. Qed.
Definition memperm : Prop := pm_ub P UbMapIndex /\ pm_ub P UbDeref.
Lemma keeps_decode_modm m : memperm -> modrm_ok m -> keeps 5 ptr_ok (decode_modm E m).
Proof.
  intros [Hu _] [_ Hm]. unfold decode_modm. destruct (m_mod m =? 3).
  { apply keeps_ret; [lia|]. apply regB_ok, Hm. }
  kb; [apply keeps_get_mmm|]. intros so Hso. kb; [apply keeps_getptr; auto|]. intros p Hp. apply keeps_ret; [lia|exact Hp].
Qed.
Lemma keeps_decode_modmx m : memperm -> modrm_ok m -> keeps 5 ptr_ok (decode_modmx E m).
Proof.
  intros [Hu _] [_ Hm]. unfold decode_modmx. destruct (m_mod m =? 3).
  { apply keeps_ret; [lia|]. apply regW_ok, Hm. }
  kb; [apply keeps_get_mmm|]. intros so Hso.
  destruct (wrap 32 _ mod 4096 =? 4095); [apply keeps_err; unfold E_BADMEM; lia|].
  kb; [apply keeps_getptr; auto|]. intros p Hp. apply keeps_ret; [lia|exact Hp].
Qed.
Definition rm_okp (rm : ptr * ptr) : Prop := ptr_ok (fst rm) /\ ptr_ok (snd rm).
Lemma keeps_parse8 : memperm -> keeps 6 rm_okp (parse_modrm E).
Proof.
  intros Hp. unfold parse_modrm. kb; [apply keeps_get_modrm|]. intros m Hm. kb; [apply keeps_decode_modm; auto|].
  intros q Hq. apply keeps_ret; [lia|]. split; [|exact Hq]. apply regB_ok, Hm.
Qed.
Lemma keeps_parsex : memperm -> keeps 6 rm_okp (parse_modrmx E).
Proof.
  intros Hp. unfold parse_modrmx. kb; [apply keeps_get_modrm|]. intros m Hm. kb; [apply keeps_decode_modmx; auto|].
  intros q Hq. apply keeps_ret; [lia|]. split; [|exact Hq]. apply regW_ok, Hm.
Qed.

(** ** Stack *)
Lemma keeps_setW r v : 0 <= r < 8 -> keeps 0 any (setW r v).
Proof. intros. apply keeps_set_gpr; lia. Qed.
Lemma keeps_setDw r v : 0 <= r < 8 -> keeps 0 any (setDw r v).
Proof. intros. apply keeps_set_gpr; lia. Qed.
Lemma keeps_push vm : keeps 0 any vm -> keeps 0 any (push E vm).
Proof.
  intros Hv. unfold push. kb; [apply keeps_getW|]. intros. kb; [apply keeps_setW; unfold R_SP; lia|]. intros.
  kb; [apply keeps_seg; intros a []; auto|]. intros ss Hss. kb; [apply keeps_getW|]. intros. kb; [exact Hv|]. intros.
  apply keeps_wr; auto using width16.
Qed.
Lemma keeps_pop : keeps 0 (inrange 16) (pop E).
Proof.
  unfold pop. kb; [apply keeps_seg; intros a []; auto|]. intros ss Hss. kb; [apply keeps_getW|]. intros.
  kb; [apply keeps_rd; auto using width16|]. intros v Hv. kb; [apply keeps_getW|]. intros.
  kb; [apply keeps_setW; unfold R_SP; lia|]. intros. apply keeps_ret; [lia|exact Hv].
Qed.
(** Ports and callbacks. *)
Lemma inv_io s e : I s -> pm_io P = true -> I (set_ar (a_iolog (iolog (ar s) ++ [e]) (ar s)) s).
Proof.
  intros Hs Hio. destruct Hs. constructor; cbn; auto.
  - destruct iv_log0 as (l & Hl & _). exists (l ++ [e]). rewrite Hl, app_assoc. split; [reflexivity|congruence].
  - destruct iv_regs0. constructor; cbn; auto.
Qed.
Lemma keeps_io_in w port : 0 <= w -> pm_io P = true -> keeps 0 (inrange w) (io_in E w port).
Proof.
  intros Hw Hio s Hs. unfold io_in. split; [apply inv_io; auto|]. split; [cbn; lia|]. apply wrap_range; auto.
Qed.
Lemma keeps_io_out w port v : pm_io P = true -> keeps 0 any (io_out w port v).
Proof. intros Hio s Hs. unfold io_out. split; [apply inv_io; auto|]. split; [cbn; lia|exact Logic.I]. Qed.
(** The host's callbacks respect the invariant. *)
Definition cb_ok : Prop := forall h n s, I s -> I (callback E h n s) /\
                 d_ipoff (dc (callback E h n s)) = d_ipoff (dc s).
Lemma keeps_hle n : cb_ok -> keeps 0 any (call_hle E n).
Proof.
  intros Hcb s Hs. unfold call_hle. destruct (hle (ar s) n =? 0).
  - split; [exact Hs|]. split; [lia|exact Logic.I].
  - destruct (Hcb (hle (ar s) n) n s Hs) as [H1 H2]. split; [exact H1|]. split; [lia|exact Logic.I].
Qed.
End Keep.
#[global] Opaque keeps.
