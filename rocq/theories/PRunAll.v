(** Proofs for C88: the emulator follows the reference machine until it meets a refusal, an exception, or the end of the code. *)
From Verif Require Import Base Cpu Alu Ops Machine Spec SpecOps SpecOps2 SpecSys SpecMul SpecStr SpecRun SpecTop SpecStop SpecEa SpecUb SpecCodes SpecMsgs SpecIsa SpecRefuse SpecOutside SpecWhole PBase PRun PSmall PTop PTop2 PEa4 PIInt PIsa PProg PStop PMsgs PRefuse PRefuse2 PWhole2 PWhole5.
Local Open Scope Z_scope.

(** ** Finding the instruction *)
Definition isp (b : Z) : bool := existsb (Z.eqb b) [38; 46; 54; 62; 100; 101; 102; 103; 242; 243].
Lemma isp_spec b : isp b = true <-> prefix_byte b.
Proof.
  unfold isp, prefix_byte. rewrite existsb_exists. split; [intros (x & H & Q); apply Z.eqb_eq in Q; subst; exact H|intros H; exists b; split; [exact H|apply Z.eqb_refl]].
Qed.
Lemma prefixes_from_bytes pre : forall p0 p, prefixes_from p0 pre = Some p -> Forall prefix_byte pre.
Proof.
  induction pre as [|b pre IH]; intros p0 p H; [constructor|]. cbn [prefixes_from] in H. destruct (add_prefix p0 b) as [p1|] eqn:A; [|discriminate H]. constructor; [eapply add_prefix_byte, A|eapply IH, H].
Qed.
Fixpoint run_of (l : list Z) : list Z * list Z := match l with b :: t => if isp b then let (x, y) := run_of t in (b :: x, y) else ([], l) | [] => ([], []) end.
Lemma run_of_spec l : forall x y, run_of l = (x, y) -> l = x ++ y /\ (forall pre b u, Forall prefix_byte pre -> ~ prefix_byte b -> (exists v, l = (pre ++ b :: u) ++ v) -> pre = x /\ exists v, y = (b :: u) ++ v).
Proof.
  induction l as [|c l IH]; cbn [run_of]; intros x y H.
  - injection H as <- <-. split; [reflexivity|]. intros pre b u _ _ [v Q]. destruct pre; discriminate Q.
  - destruct (isp c) eqn:C.
    + destruct (run_of l) as [x0 y0]. injection H as <- <-. destruct (IH _ _ eq_refl) as [-> K]. split; [reflexivity|]. intros pre b u F N [v Q]. apply isp_spec in C.
      destruct pre as [|d pre]; [injection Q as -> _; contradiction|]. cbn [app] in Q. injection Q as -> Q. inversion F; subst. destruct (K pre b u ltac:(assumption) N ltac:(eauto)) as [-> V]. auto.
    + injection H as <- <-. split; [reflexivity|]. intros pre b u F N [v Q].
      destruct pre as [|d pre]; [cbn [app] in Q; split; [reflexivity|exists v; exact Q]|]. cbn [app] in Q. injection Q as -> _. inversion F as [|? ? Z]; subst. apply isp_spec in Z. congruence.
Qed.
Definition all_code (a : arch) : list Z := map (fun i => byte a (pc a + Z.of_nat i)) (seq 0 (Z.to_nat (65536 - r_ip a))).
Lemma nth_all a i : (i < Z.to_nat (65536 - r_ip a))%nat -> nth_error (all_code a) i = Some (byte a (pc a + Z.of_nat i)).
Proof.
  intros H. unfold all_code. rewrite nth_error_map. replace (nth_error (seq 0 (Z.to_nat (65536 - r_ip a))) i) with (Some i); [reflexivity|].
  symmetry. rewrite (nth_error_nth' _ 0%nat) by (rewrite seq_length; exact H). rewrite seq_nth by exact H. reflexivity.
Qed.
Lemma all_len a : length (all_code a) = Z.to_nat (65536 - r_ip a).
Proof. unfold all_code. rewrite map_length, seq_length. reflexivity. Qed.
Lemma code_all a : 0 <= r_ip a < 65536 -> code a (all_code a).
Proof.
  intros H. split; [unfold blen; rewrite all_len; lia|]. intros i b Hi. assert (L : (i < length (all_code a))%nat) by (apply nth_error_Some; congruence). rewrite all_len in L.
  rewrite (nth_all a i L) in Hi. congruence.
Qed.
Lemma code_is_part a l : code a l -> exists v, all_code a = l ++ v.
Proof.
  intros [L H]. exists (skipn (length l) (all_code a)). rewrite <- (firstn_skipn (length l) (all_code a)) at 1. f_equal.
  assert (LL : (length l <= length (all_code a))%nat) by (rewrite all_len; unfold blen in L; lia).
  apply (nth_ext _ _ 0 0); [rewrite firstn_length; lia|]. rewrite firstn_length. intros i Hi.
  assert (Hl : (i < length l)%nat) by lia.
  assert (E1 : nth_error (all_code a) i = Some (byte a (pc a + Z.of_nat i))) by (apply nth_all; rewrite all_len in LL; lia).
  assert (E2 : nth_error l i = Some (nth i l 0)) by (apply nth_error_nth', Hl).
  rewrite <- (H i _ E2). apply nth_error_nth. rewrite <- E1. clear -Hl LL.
  revert i l Hl LL. generalize (all_code a). intros m i l Hl _. revert m l Hl. induction i as [|i IH]; intros [|x m] [|y l] Hl; cbn [length firstn nth_error] in *; try lia; auto. apply IH. lia.
Qed.
Lemma find_instruction a : 0 <= r_ip a < 65536 ->
  (exists pre p bs, prefixes pre = Some p /\ code a (pre ++ bs) /\ opcode_read bs /\ 12 <= blen bs) \/
  (forall pre p bs, prefixes pre = Some p -> code a (pre ++ bs) -> opcode_read bs -> blen bs < 12).
Proof.
  intros Hip. pose proof (code_all a Hip) as C. destruct (run_of (all_code a)) as [x y] eqn:Hr. destruct (run_of_spec _ _ _ Hr) as [Hl K].
  assert (KK : forall pre p bs, prefixes pre = Some p -> code a (pre ++ bs) -> opcode_read bs -> pre = x /\ exists v, y = bs ++ v).
  { intros pre p bs Hp Hc Ho. destruct bs as [|b u]; [destruct Ho|]. destruct Ho as (N & _). apply K; [eapply prefixes_from_bytes, Hp|exact N|]. destruct (code_is_part a _ Hc) as [v Q]. eauto. }
  destruct (prefixes x) as [p|] eqn:Hp; [|right; intros pre q bs H1 H2 H3; destruct (KK _ _ _ H1 H2 H3) as [-> _]; congruence].
  destruct (Z.lt_ge_cases (blen y) 12) as [Hs|Hs].
  { right. intros pre q bs H1 H2 H3. destruct (KK _ _ _ H1 H2 H3) as [_ [v ->]]. unfold blen in *. rewrite app_length in Hs. lia. }
  destruct y as [|b u]; [exfalso; unfold blen in Hs; cbn [length] in Hs; lia|].
  destruct (Z.eq_dec b 241) as [->|H241].
  { right. intros pre q bs H1 H2 H3. destruct (KK _ _ _ H1 H2 H3) as [_ [v Q]]. destruct bs as [|c t]; [destruct H3|]. cbn [app] in Q. injection Q as <- _. destruct H3 as (_ & H3 & _). contradiction. }
  left. exists x, p, (b :: u). split; [exact Hp|]. split; [rewrite <- Hl; exact C|]. split; [|exact Hs]. split; [|split; [exact H241|intros ->; unfold blen in Hs; cbn [length] in Hs; lia]].
  intros Q. clear -Hr Q. apply isp_spec in Q.
  assert (G : forall l x y, run_of l = (x, y) -> match y with c :: _ => isp c = false | [] => True end).
  { induction l as [|c l IH]; cbn [run_of]; intros x0 y0 H; [injection H as <- <-; exact I|]. destruct (isp c) eqn:C; [|injection H as <- <-; exact C].
    destruct (run_of l) as [x1 y1]. injection H as <- <-. exact (IH _ _ eq_refl). }
  specialize (G _ _ _ Hr). change (isp b = false) in G. congruence.
Qed.

(** ** The run *)
Section Run.
Context (E : env) (base : Z) (f : Z -> Z -> arch -> arch).
Hypothesis Hcb : callbacks E f.
Hypothesis Hsv : forall h n a, machine E base a -> machine E base (f h n a).
Hypothesis Hpo : polite E.
Hypothesis Hqu : quiet_host E.
Lemma machine_next s s1 : machine E base (ar s) -> wf_state s -> run_one E s = Ok tt s1 -> machine E base (ar s1) /\ wf_state s1.
Proof.
  intros M W H. pose proof (wf_one E s Hpo W s1 (or_introl H)) as W1. pose proof (config_one E s Hpo W s1 (or_introl H)) as C. split; [|exact W1]. destruct M as [F _ _]. destruct F as [F0 F1 F2 F3]. constructor.
  - constructor; auto.
    + intros b Hb. rewrite (sc_map _ _ C). auto.
    + intros x Hx. destruct (F3 x Hx) as (b & Hb & Rb). destruct (hmem (ar s1) (base + x)) as [b1|] eqn:Q; [exists b1; split; [reflexivity|]; eapply (ws_bytes _ W1), Q|].
      apply (sc_dom _ _ C) in Q. congruence.
  - apply (ws_regs _ W1).
  - apply (ws_bytes _ W1).
Qed.
Theorem run_all n : forall s, machine E base (ar s) -> wf_state s -> 0 <= icount s -> icount s + Z.of_nat n <= 2147483647 ->
  exists k s', (k <= n)%nat /\ runs E k s s' /\ follows (port_in E) f k (ar s) (ar s') /\ (k = n \/ leaves_reference E s').
Proof.
  induction n as [|n IH]; intros s M W H0 Hi.
  { exists 0%nat, s. split; [lia|]. split; [constructor|]. split; [constructor|auto]. }
  assert (stop : leaves_reference E s -> exists k s', (k <= S n)%nat /\ runs E k s s' /\ follows (port_in E) f k (ar s) (ar s') /\ (k = S n \/ leaves_reference E s')).
  { intros L. exists 0%nat, s. split; [lia|]. split; [constructor|]. split; [constructor|auto]. }
  pose proof (m_regs _ _ _ M) as Wr. pose proof (wf_ip _ Wr) as Wip. unfold inrange in Wip. change (2 ^ 16) with 65536 in Wip.
  assert (go : forall s1, run_one E s = Ok tt s1 -> icount s <= icount s1 <= icount s + 1 -> (forall k b, follows (port_in E) f k (ar s1) b -> follows (port_in E) f (S k) (ar s) b) ->
    exists k s', (k <= S n)%nat /\ runs E k s s' /\ follows (port_in E) f k (ar s) (ar s') /\ (k = S n \/ leaves_reference E s')).
  { intros s1 Hr Hc HF. destruct (machine_next s s1 M W Hr) as [M1 W1]. destruct (IH s1 M1 W1 ltac:(lia) ltac:(lia)) as (k & s' & L & R & F & D).
    exists (S k), s'. split; [lia|]. split; [econstructor; eauto|]. split; [apply HF, F|]. destruct D as [->|D]; auto. }
  destruct (lastnull s) eqn:Hl; [apply stop, lr_zeros, Hl|].
  assert (D1 : magic (ar s) \/ ~ magic (ar s)).
  { unfold magic. destruct (Z.eq_dec (r_cs (ar s)) 65535); [|right; tauto]. destruct (Z.eq_dec (r_ip (ar s)) 65535); [left; tauto|right; tauto]. }
  destruct D1 as [D1|D1]; [apply stop, lr_return, D1|].
  assert (D2 : hle_entry_pc (ar s) \/ ~ hle_entry_pc (ar s)).
  { unfold hle_entry_pc. destruct (Z.eq_dec (r_cs (ar s)) 47104); [|right; tauto]. destruct (Z.lt_ge_cases (r_ip (ar s)) 256); [left; tauto|right; lia]. }
  destruct D2 as [D2|D2].
  { pose proof D2 as [Hcs Hip]. pose proof (hle_machine E base f Hsv (r_ip (ar s)) (ar s) M) as Mh.
    destruct (hle_entry E base f s (r_ip (ar s)) Hcb Hcs eq_refl ltac:(lia) (m_flat _ _ _ Mh) (m_regs _ _ _ Mh)) as (s1 & Hr & S & I1 & _).
    apply (go s1 Hr ltac:(lia)). intros k b F. exact (fl_service _ _ k (ar s) (ar s1) b D2 S F). }
  assert (Hn : normal_pc (ar s)) by (split; [exact D1|exact D2]).
  destruct (find_instruction (ar s) Wip) as [(pre & p & bs & Hp & Hc & Ho & H12)|HX]; [|apply stop, lr_code, HX].
  assert (Hf : fetched E base s pre p bs) by (split; [constructor; [apply M|apply M|exact Hn|lia]|auto]).
  destruct (cover E base (port_in E) f s pre p bs Hf Ho H12) as [(i & j & R & -> & HI)|[(c & HR)|HO]].
  - pose proof (fetched_prefix _ _ _ _ _ _ _ Hf) as Hfi.
    destruct (isa_lands_g E base f s pre p i R Hcb Hfi HI ltac:(intros m; apply (hle_machine E base f Hsv), M) ltac:(intros a1 _; rewrite Hl; reflexivity)) as (a1 & H1 & s1 & Hr & S & I1 & _).
    apply (go s1 Hr ltac:(lia)). intros k b F. destruct Hfi as (_ & _ & Hci). exact (fl_step _ _ k (ar s) pre p i R a1 (ar s1) b Hn Hp Hci HI H1 S F).
  - destruct (refused_all E base Hpo Hqu s pre p bs c Hf W (whole_long p (ar s) bs Ho H12) HR) as (s1 & Hr).
    apply stop. exact (lr_refused _ _ pre p bs c s1 Hp Hc HR Hr).
  - apply stop. exact (lr_exception _ _ pre p bs Hp Hc HO).
Qed.
End Run.
(** RME_CallInt enters the handler and goes on as RME_Call. *)
Lemma call_int_start E base n s : 0 <= n < 256 -> machine E base (ar s) -> wf_state s ->
  exists s1, same (ar s1) (enter_int n 65535 (a_ip 65535 (a_cs 65535 (ar s)))) /\ machine E base (ar s1) /\ wf_state s1 /\ icount s1 = icount s /\
    forall f, call_int E f n s = rme_call E f s1.
Proof.
  intros Hn M W. pose proof (m_flat _ _ _ M) as F. pose proof (m_regs _ _ _ M) as Wr. destruct s as [a d g c l]. cbn [ar icount dbg lastnull] in *.
  assert (M0 : machine E base (a_ip 65535 (a_cs 65535 a))).
  { destruct M as [[A0 A1 A2 A3] [] B1]. constructor; [constructor; auto|constructor; auto; cbn; unfold inrange; lia|exact B1]. }
  destruct (int_callint_eq E base n (a_ip 65535 (a_cs 65535 a)) d g c l Hn (m_flat _ _ _ M0) (m_regs _ _ _ M0)) as (a' & Hi & _ & Hs).
  assert (M1 : machine E base a').
  { eapply machine_same; [exact Hs|]. change (r_ip (a_ip 65535 (a_cs 65535 a))) with 65535. apply (machine_enter_int E base (fun _ _ b => b) ltac:(auto)); auto. }
  exists (mkSt a' d g c l). cbn [ar icount]. split; [exact Hs|]. split; [exact M1|]. split.
  - destruct W as [_ _ W1 W2 W3]. cbn [dc] in *. constructor; cbn [ar dc]; auto; [apply (m_regs _ _ _ M1)|apply (m_bytes _ _ _ M1)].
  - split; [reflexivity|]. intros fl. unfold call_int. rewrite st_set_cs, st_set_ip. change (wrap 16 65535) with 65535. erewrite bind_ok by exact Hi. reflexivity.
Qed.
