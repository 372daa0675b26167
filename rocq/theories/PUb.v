(** Proofs: exactly when an instruction reaches an undefined operation. *)
From Verif Require Import Base Cpu Alu Ops Machine Spec SpecOps SpecOps2 SpecSys SpecRun SpecStop SpecEa SpecUb PBase PMem PRun PFrame PAlu PExec PIAlu PStep PIInt PKeep PKeep2 PKeep3 PTop PTop2 PTop3 PIMov PStop PStop2 PEa PEa2 PEa3 PEa4.

(** RME_RunOne is undefined exactly if the handler is. *)
Lemma run_ub_back E base s pre p bs r o k m : polite E -> fetched E base s pre p bs -> wf_state s ->
  0 <= cpu (ar s) <= 2 -> opcode_read bs -> dispatch bs = Some (o, k, m) -> run_one E s = UB r ->
  exec1 E o k (mkSt (ar s) (dec_of p (blen pre + m)) (dbg s) (icount s + 1) (lastnull s)) = UB r.
Proof.
  intros Hpol Hf Hw Hcpu Hr Hd HR. pose proof Hf as (Rd & Hp & C). destruct Rd as [F W PC Hc].
  pose proof (code_bytes E base _ _ _ _ Hf) as Hbytes.
  destruct (dispatch_class bs o k m Hr Hbytes Hd) as (Hcl & Ha & Hm1 & Hm2).
  pose proof (prefixes_length _ _ Hp) as Hpl. assert (Hbl : 0 <= blen pre <= 4) by (unfold blen; lia).
  set (s0 := hstart s p (blen pre + m)).
  assert (W0 : wf_state s0) by (eapply wf_hstart; eauto; lia).
  pose proof (inv_refl (opperm o) s0 W0) as I0.
  pose proof (opperm_ok E s0 o Hpol Hcpu) as Hperm.
  assert (Hmem : (exists base, flat E base (ar s0)) \/ (pm_ub (opperm o) UbDeref /\ pm_ub (opperm o) UbUninit)) by (left; exists base; exact F).
  pose proof (proj1 (keeps_run _ _ _ _ _) (exec1_keeps E (opperm o) s0 Hmem o k Ha Hperm (cl_pre _ _ Hcl)) s0 I0) as HX.
  unfold s0, hstart in HX.
  destruct (exec1 E o k (mkSt (ar s) (dec_of p (blen pre + m)) (dbg s) (icount s + 1) (lastnull s))) as [[] s2|c s2|r'|] eqn:Hx; try contradiction.
  - exfalso. destruct HX as (I2 & L2 & _).
    rewrite run_one_normal in HR by exact PC. destruct s as [a d g n l]. cbn [ar dc dbg icount lastnull] in *.
    rewrite do_opcode_eq in HR by exact Hc. unfold bind at 1 in HR.
    rewrite (op_loop_exec E base a pre p g (n + 1) l bs o k m F W C Hp Hd), Hx in HR.
    set (s3 := if d_noip (dc s2) then s2 else set_ar (a_ip (wrap 16 (r_ip (ar s2) + d_ipoff (dc s2))) (ar s2)) s2) in *.
    assert (Hadv : advance_ip s2 = Ok tt s3).
    { unfold s3, advance_ip, bind, getD, getA, gets. destruct (d_noip (dc s2)); reflexivity. }
    unfold bind at 1 in HR. rewrite Hadv in HR.
    assert (F3 : flat E base (ar s3)).
    { pose proof (inv_flat E _ s0 s2 base F I2) as F2. unfold s3. destruct (d_noip (dc s2)); [exact F2|].
      eapply flat_ext; [| |exact F2]; reflexivity. }
    assert (D3 : dc s3 = dc s2) by (unfold s3; destruct (d_noip (dc s2)); reflexivity).
    unfold bind at 1 in HR. destruct (null_flat E base (r_cs a) (r_ip a) s3 F3 ltac:(apply W)) as [[l' Hn]|Hn]; rewrite Hn in HR.
    + rewrite (trace_flat E base) in HR by (try exact F3; try apply W; cbn; rewrite D3; apply (iv_off _ _ _ I2)). discriminate HR.
    + discriminate HR.
  - exfalso. destruct HX as (I2 & Hc2 & Hdv).
    rewrite (run_err E base s pre p bs o k m c s2 Hf Hd Hx) in HR by (unfold E_CONTINUE; lia).
    destruct (Z.eqb_spec c E_DIVERR) as [->|Hne]; [|discriminate HR].
    pose proof (inv_flat E _ s0 s2 base F I2) as F2.
    destruct s2 as [a2 d2 g2 n2 l2]. cbn [ar] in F2.
    destruct (int_callint_eq E base 0 a2 d2 g2 n2 l2 ltac:(lia) F2 (iv_regs _ _ _ I2)) as (a' & Hi & F' & Hs). rewrite Hi in HR. discriminate HR.
  - rewrite (run_ub E base s pre p bs o k m r' Hf Hd Hx) in HR. congruence.
Qed.

(** ** Code that is never undefined *)
Section Safe.
Context (E : env) (base : Z).
Definition J (s : st) : Prop := flat E base (ar s) /\ forall c, 0 <= c < 6 -> inrange 16 (sreg c (ar s)).
Definition safe {X} (m : M X) (Q : X -> st -> Prop) (s : st) : Prop :=
  match m s with Ok x s' => Q x s' | UB _ => False | _ => True end.
Definition okptr (q : ptr) : Prop := match q with PGpr _ => True | PMem h => exists x, h = base + x /\ 0 <= x /\ x + 4 <= map_size end.

Lemma safe_bind X Y (m : M X) (f : X -> M Y) Q s : safe m (fun x s' => safe (f x) Q s') s -> safe (bind m f) Q s.
Proof. unfold safe, bind. destruct (m s); auto. Qed.
Lemma safe_ret X (x : X) (Q : X -> st -> Prop) s : Q x s -> safe (ret x) Q s. Proof. auto. Qed.
Lemma safe_err X c (Q : X -> st -> Prop) s : safe (err c) Q s. Proof. exact I. Qed.
Lemma safe_gets X (f : st -> X) (Q : X -> st -> Prop) s : Q (f s) s -> safe (gets f) Q s. Proof. auto. Qed.
Lemma safe_load w q (Q : Z -> st -> Prop) s : width w -> J s -> okptr q -> (forall v, Q v s) -> safe (load w q) Q s.
Proof.
  intros Hw [F _] Hq HQ. unfold safe. destruct q as [pos|h]; [cbn; apply HQ|]. destruct Hq as (x & -> & H0 & H1). destruct s as [a d g n l]. cbn [load ar] in *.
  rewrite hload_flat with (E := E); auto. unfold map_size in H1. destruct Hw as [->|[->| ->]]; cbn; lia.
Qed.
Lemma J_gpr s v : J s -> J (set_ar (a_gprs v (ar s)) s).
Proof. intros [F S]. split; [eapply flat_ext; [| |exact F]; reflexivity|]. intros c Hc. specialize (S c Hc). exact S. Qed.
Lemma J_flags s v : J s -> J (set_ar (a_flags v (ar s)) s).
Proof. intros [F S]. split; [eapply flat_ext; [| |exact F]; reflexivity|]. intros c Hc. specialize (S c Hc). exact S. Qed.
Lemma J_ip s v : J s -> J (set_ar (a_ip v (ar s)) s).
Proof. intros [F S]. split; [eapply flat_ext; [| |exact F]; reflexivity|]. intros c Hc. specialize (S c Hc). exact S. Qed.
Lemma J_dc s d : J s -> J (set_dc d s).
Proof. intros [F S]. split; [exact F|exact S]. Qed.
Lemma safe_store w q v (Q : unit -> st -> Prop) s : width w -> J s -> okptr q -> (forall s', J s' -> dc s' = dc s -> Q tt s') -> safe (store w q v) Q s.
Proof.
  intros Hw HJ Hq HQ. unfold safe. destruct q as [pos|h].
  - cbn. apply HQ; [|reflexivity]. apply (J_gpr s), HJ.
  - destruct Hq as (x & -> & H0 & H1). destruct HJ as [F S]. destruct s as [a d g n l]. cbn [store ar] in *.
    rewrite hstore_flat with (E := E); auto.
    + apply HQ; [|reflexivity]. split; [apply smem_flat', F|exact S].
    + unfold map_size in H1. destruct Hw as [->|[->| ->]]; cbn; lia.
Qed.
Lemma safe_rd w sg o (Q : Z -> st -> Prop) s : width w -> J s -> inrange 16 sg -> (forall v, Q v s) -> safe (rd E w sg o) Q s.
Proof. intros Hw [F _] Hs HQ. unfold safe. destruct s as [a d g n l]. cbn [ar] in F. rewrite rd_flat with (base := base); auto. Qed.
Lemma safe_wr w sg o v (Q : unit -> st -> Prop) s : width w -> J s -> inrange 16 sg -> (forall s', J s' -> dc s' = dc s -> Q tt s') -> safe (wr E w sg o v) Q s.
Proof.
  intros Hw [F S] Hs HQ. unfold safe. destruct s as [a d g n l]. cbn [ar] in *. rewrite wr_flat with (base := base) by auto.
  apply HQ; [|reflexivity]. split; [apply smem_flat', F|exact S].
Qed.
Lemma safe_set_flags v (Q : unit -> st -> Prop) s : J s -> (forall s', J s' -> dc s' = dc s -> Q tt s') -> safe (set_flags v) Q s.
Proof. intros HJ HQ. apply HQ; [apply (J_flags s), HJ|reflexivity]. Qed.
Lemma safe_set_ip v (Q : unit -> st -> Prop) s : J s -> (forall s', J s' -> dc s' = dc s -> Q tt s') -> safe (set_ip v) Q s.
Proof. intros HJ HQ. apply HQ; [apply (J_ip s), HJ|reflexivity]. Qed.
Lemma safe_set_gpr pos w v (Q : unit -> st -> Prop) s : J s -> (forall s', J s' -> dc s' = dc s -> Q tt s') -> safe (set_gpr pos w v) Q s.
Proof. intros HJ HQ. apply HQ; [apply (J_gpr s), HJ|reflexivity]. Qed.
Lemma safe_get_gpr pos w (Q : Z -> st -> Prop) s : (forall v, Q v s) -> safe (get_gpr pos w) Q s.
Proof. intros HQ. apply HQ. Qed.
Lemma safe_fetch w (Q : Z -> st -> Prop) s : width w -> J s -> (forall v s', J s' -> Q v s') -> safe (fetch E w) Q s.
Proof.
  intros Hw HJ HQ. unfold fetch. repeat (apply safe_bind; apply safe_gets). apply safe_bind. apply safe_rd; auto.
  { apply (proj2 HJ 1). lia. }
  intros v. apply safe_bind. cbn. apply HQ. apply (J_dc s), HJ.
Qed.
Lemma safe_push (v : M Z) (Q : unit -> st -> Prop) s : J s -> (forall s' (R : Z -> st -> Prop), J s' -> (forall x, R x s') -> safe v R s') ->
  (forall s', J s' -> Q tt s') -> safe (push E v) Q s.
Proof.
  intros HJ Hv HQ. unfold push. apply safe_bind. apply safe_get_gpr. intros sp. apply safe_bind. apply safe_set_gpr; [exact HJ|]. intros s1 J1 _.
  apply safe_bind. apply safe_gets. apply safe_bind. apply safe_get_gpr. intros sp'. apply safe_bind. apply Hv; [exact J1|]. intros x.
  apply safe_wr; auto with width. apply (proj2 J1 2). lia.
Qed.
Lemma safe_pop (Q : Z -> st -> Prop) s : J s -> (forall v s', J s' -> dc s' = dc s -> Q v s') -> safe (pop E) Q s.
Proof.
  intros HJ HQ. unfold pop. apply safe_bind. apply safe_gets. apply safe_bind. apply safe_get_gpr. intros sp. apply safe_bind. apply safe_rd; auto with width.
  { apply (proj2 HJ 2). lia. }
  intros v. apply safe_bind. apply safe_get_gpr. intros sp'. apply safe_bind. apply safe_set_gpr; [exact HJ|]. intros s1 J1 D1. apply safe_ret. auto.
Qed.
Lemma safe_setseg c v (Q : unit -> st -> Prop) s : 0 <= c < 6 -> (forall s', Q tt s') -> safe (setseg c v) Q s.
Proof.
  intros Hc HQ. unfold safe, setseg. destruct s as [a d g n l]. cbn [ar].
  assert (c = 0 \/ c = 1 \/ c = 2 \/ c = 3 \/ c = 4 \/ c = 5) as K by lia. repeat destruct K as [->|K]; try subst c; apply HQ.
Qed.
Lemma safe_getseg c (Q : Z -> st -> Prop) s : 0 <= c < 6 -> (forall v, Q v s) -> safe (getseg c) Q s.
Proof.
  intros Hc HQ. unfold safe, getseg. assert (c = 0 \/ c = 1 \/ c = 2 \/ c = 3 \/ c = 4 \/ c = 5) as K by lia. repeat destruct K as [->|K]; try subst c; apply HQ.
Qed.
Lemma safe_not_ub X (m : M X) (Q : X -> st -> Prop) s r : safe m Q s -> m s <> UB r.
Proof. unfold safe. destruct (m s); intros H; try discriminate. contradiction. Qed.
End Safe.
