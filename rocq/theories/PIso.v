(** Isolation (C49, C11): what RME_RunOne does depends only on, and changes only, accessible host
    memory.  A relational version of the walk over all handlers in PDebug.v. *)
From Verif Require Import Base Cpu Alu Ops Machine Spec SpecRun PBase.

Section Iso.
Context (E : env) (mt : Z -> Z) (h1 h2 : Z -> option Z) (HC : cb_inside E).
Notation acc := (accessible E mt).
Definition sim (s1 s2 : st) : Prop := end_alike E mt h1 h2 s1 s2 /\ (forall x, h1 x <> None -> hmem (ar s1) x <> None).
Definition backed : Prop := forall x, acc x -> h1 x <> None.

Definition rel {X} (Q : X -> Prop) (m : M X) : Prop := forall s1 s2, sim s1 s2 ->
  match m s1, m s2 with
  | Ok x t1, Ok y t2 => x = y /\ Q x /\ sim t1 t2
  | Err c t1, Err d t2 => c = d /\ sim t1 t2
  | UB r, UB r' => r = r' /\ (backed -> r <> UbDeref)
  | Fuel, Fuel => True
  | _, _ => False
  end.
Definition any {X} (x : X) : Prop := True.
Lemma any_I {X} (x : X) : any x. Proof. exact I. Qed.
Lemma rel_alike {X} (Q : X -> Prop) m s1 s2 : rel Q m -> sim s1 s2 -> alike E mt h1 h2 (m s1) (m s2).
Proof. intros R S. specialize (R s1 s2 S). destruct (m s1), (m s2); cbn; unfold sim in *; tauto. Qed.

Lemma rel_bind {X Y} (Q : X -> Prop) (R : Y -> Prop) m f : rel Q m -> (forall x, Q x -> rel R (f x)) -> rel R (bind m f).
Proof.
  intros H1 H2 s1 s2 S. specialize (H1 s1 s2 S). unfold bind. destruct (m s1) as [x t1|c t1|r|], (m s2) as [y t2|d t2|r2|]; try tauto.
  destruct H1 as (<- & HQ & S'). exact (H2 x HQ t1 t2 S').
Qed.
Lemma rel_weak {X} (Q R : X -> Prop) m : rel Q m -> (forall x, Q x -> R x) -> rel R m.
Proof. intros H1 H2 s1 s2 S. specialize (H1 s1 s2 S). destruct (m s1), (m s2); try tauto. destruct H1 as (? & ? & ?); auto. Qed.
Lemma rel_any {X} (Q : X -> Prop) m : rel Q m -> rel any m.
Proof. intros H. eapply rel_weak; [exact H|]. intros. exact I. Qed.
Lemma rel_ret {X} (Q : X -> Prop) x : Q x -> rel Q (ret x). Proof. intros H s1 s2 S. cbn. auto. Qed.
Lemma rel_err {X} (Q : X -> Prop) c : rel Q (@err X c). Proof. intros s1 s2 S. cbn. auto. Qed.
Lemma rel_undef {X} (Q : X -> Prop) r : r <> UbDeref -> rel Q (@undef X r). Proof. intros H s1 s2 S. cbn. auto. Qed.
Lemma rel_fuel {X} (Q : X -> Prop) : rel Q (fun _ => @Fuel X). Proof. intros s1 s2 S. cbn. auto. Qed.
(** Reads that do not look at host memory. *)
Definition blind {X} (f : arch -> X) : Prop := forall h a, f (a_hmem h a) = f a.
Lemma rel_getA {X} (f : arch -> X) : blind f -> rel any (getA f).
Proof.
  intros B s1 s2 S. pose proof S as [[(M1 & S2 & A) Fr] Dm]. cbn. split; [rewrite S2; cbn; symmetry; apply B|].
  split; [exact I|exact S].
Qed.
Lemma rel_getD {X} (f : dec -> X) : rel any (getD f).
Proof.
  intros s1 s2 S. pose proof S as [[(M1 & S2 & A) Fr] Dm]. cbn. split; [rewrite S2; reflexivity|]. split; [exact I|exact S].
Qed.
Lemma rel_gets {X} (f : st -> X) : (forall h s, f (with_host h s) = f s) -> rel any (gets f).
Proof.
  intros B s1 s2 S. pose proof S as [[(M1 & S2 & A) Fr] Dm]. cbn. split; [rewrite S2; symmetry; apply B|]. split; [exact I|exact S].
Qed.
(** Updates that leave host memory and the map alone. *)
Definition quiet (f : st -> st) : Prop := forall s, mtab (ar (f s)) = mtab (ar s) /\ hmem (ar (f s)) = hmem (ar s) /\
  forall h, f (with_host h s) = with_host h (f s).
Lemma rel_modify f : quiet f -> rel any (modify f).
Proof.
  intros Q s1 s2 [[(M1 & S2 & A) Fr] Dm]. cbn. split; [reflexivity|]. split; [exact I|].
  destruct (Q s1) as (T1 & U1 & V1). destruct (Q s2) as (T2 & U2 & _). split; [|intros x Hx; rewrite U1; auto]. split; [split; [|split]|].
  - rewrite T1. exact M1.
  - rewrite U2. rewrite S2 at 1. apply V1.
  - intros x Hx. rewrite U1, U2. auto.
  - intros x Hx. rewrite U1, U2. auto.
Qed.
Lemma rel_upd_dc f : rel any (upd_dc f). Proof. apply rel_modify. intros s. split; [reflexivity|]. split; reflexivity. Qed.
Lemma rel_upd_ar f : (forall a, mtab (f a) = mtab a /\ hmem (f a) = hmem a /\ forall h, f (a_hmem h a) = a_hmem h (f a)) -> rel any (upd_ar f).
Proof.
  intros H. apply rel_modify. intros s. destruct (H (ar s)) as (H3 & H4 & H5). cbn. split; [exact H3|]. split; [exact H4|].
  intros h. unfold with_host, set_ar. cbn. rewrite H5. reflexivity.
Qed.
Ltac upd := apply rel_upd_ar; intros; split; [reflexivity|split; reflexivity].
Ltac geta := apply rel_getA; intros ? ?; reflexivity.
Lemma rel_get_gpr p w : rel any (get_gpr p w). Proof. geta. Qed.
Lemma rel_set_gpr p w v : rel any (set_gpr p w v). Proof. upd. Qed.
Lemma rel_set_ip v : rel any (set_ip v). Proof. upd. Qed.
Lemma rel_set_cs v : rel any (set_cs v). Proof. upd. Qed.
Lemma rel_set_flags v : rel any (set_flags v). Proof. upd. Qed.

(** Host accesses through a pointer into a block. *)
Definition mptr (p : Z) : Prop := exists b, 0 <= b < 272 /\
  (null_check E = true -> mt b <> 0 \/ (zero_null_ok E = true /\ b = 0)) /\ mt b <= p < mt b + 4096.
Definition okp (q : ptr) : Prop := match q with PGpr _ => True | PMem p => mptr p end.
Lemma mptr_acc p i : mptr p -> 0 <= i < 4 -> acc (p + i).
Proof. intros (b & Hb & Hn & Hp) Hi. exists b. split; [exact Hb|]. split; [exact Hn|lia]. Qed.
Lemma load_agree (n : nat) g1 g2 : forall p, (forall i, 0 <= i < Z.of_nat n -> g1 (p + i) = g2 (p + i)) -> load_bytes n g1 p = load_bytes n g2 p.
Proof.
  induction n as [|n IH]; intros p H; [reflexivity|]. cbn [load_bytes]. rewrite (IH (p + 1)).
  - specialize (H 0 ltac:(lia)). rewrite Z.add_0_r in H. rewrite H. reflexivity.
  - intros i Hi. specialize (H (1 + i) ltac:(lia)). rewrite !Z.add_assoc in H. exact H.
Qed.
Lemma valid_agree (n : nat) g1 g2 : forall p, (forall i, 0 <= i < Z.of_nat n -> g1 (p + i) = g2 (p + i)) -> valid_bytes n g1 p = valid_bytes n g2 p.
Proof.
  induction n as [|n IH]; intros p H; [reflexivity|]. cbn [valid_bytes]. rewrite (IH (p + 1)).
  - specialize (H 0 ltac:(lia)). rewrite Z.add_0_r in H. rewrite H. reflexivity.
  - intros i Hi. specialize (H (1 + i) ltac:(lia)). rewrite !Z.add_assoc in H. exact H.
Qed.
Lemma load_bytes_some n h : forall p, (forall i, 0 <= i < Z.of_nat n -> h (p + i) <> None) -> exists v, load_bytes n h p = Some v.
Proof.
  induction n as [|n IH]; intros p H; cbn [load_bytes]; [eauto|].
  destruct (h p) as [b|] eqn:Eb.
  - destruct (IH (p + 1)) as [r Hr].
    + intros i Hi. replace (p + 1 + i) with (p + (1 + i)) by lia. apply H. lia.
    + rewrite Hr. eauto.
  - exfalso. apply (H 0); [lia|]. rewrite Z.add_0_r. exact Eb.
Qed.
Lemma valid_bytes_some n h : forall p, (forall i, 0 <= i < Z.of_nat n -> h (p + i) <> None) -> valid_bytes n h p = true.
Proof.
  induction n as [|n IH]; intros p H; cbn [valid_bytes]; [reflexivity|].
  destruct (h p) as [b|] eqn:Eb.
  - apply IH. intros i Hi. replace (p + 1 + i) with (p + (1 + i)) by lia. apply H. lia.
  - exfalso. apply (H 0); [lia|]. rewrite Z.add_0_r. exact Eb.
Qed.
Lemma nb4 w : w <= 32 -> Z.of_nat (nbytes w) <= 4.
Proof. intros H. unfold nbytes. lia. Qed.
Lemma rel_hload w p : w <= 32 -> mptr p -> rel any (hload w p).
Proof.
  intros Hw Hp s1 s2 S. pose proof S as [[(M1 & S2 & A) Fr] Dm]. unfold hload.
  rewrite (load_agree (nbytes w) (hmem (ar s1)) (hmem (ar s2)) p).
  - destruct (load_bytes _ _ _) eqn:El; [split; [reflexivity|split; [exact I|exact S]]|]. split; [reflexivity|]. intros B. exfalso.
    destruct (load_bytes_some (nbytes w) (hmem (ar s1)) p) as [v Hv].
    + intros i Hi. apply Dm, B, mptr_acc; auto. pose proof (nb4 w Hw). lia.
    + rewrite (load_agree (nbytes w) (hmem (ar s1)) (hmem (ar s2)) p) in Hv; [congruence|]. intros i Hi. apply A, mptr_acc; auto. pose proof (nb4 w Hw). lia.
  - intros i Hi. apply A, mptr_acc; auto. pose proof (nb4 w Hw). lia.
Qed.
Lemma rel_hstore w p v : w <= 32 -> mptr p -> rel any (hstore w p v).
Proof.
  intros Hw Hp s1 s2 S. pose proof S as [[(M1 & S2 & A) Fr] Dm]. unfold hstore. pose proof (nb4 w Hw) as Hn.
  rewrite (valid_agree (nbytes w) (hmem (ar s1)) (hmem (ar s2)) p).
  2:{ intros i Hi. apply A, mptr_acc; auto. lia. }
  destruct (valid_bytes _ _ _) eqn:Ev.
  2:{ split; [reflexivity|]. intros B. exfalso. rewrite valid_bytes_some in Ev; [discriminate|].
      intros i Hi. rewrite <- A by (apply mptr_acc; auto; lia). apply Dm, B, mptr_acc; auto. lia. }
  split; [reflexivity|]. split; [exact I|].
  split; [|intros x Hx; cbn; unfold store_bytes; destruct (_ && _); [discriminate|apply Dm, Hx]].
  split; [split; [exact M1|split]|].
  - cbn. rewrite S2. reflexivity.
  - intros x Hx. cbn. unfold store_bytes. destruct (_ && _); [reflexivity|]. apply A, Hx.
  - intros x Hx. cbn. unfold store_bytes. destruct ((p <=? x) && (x <? p + Z.of_nat (nbytes w))) eqn:Hr; [|apply Fr, Hx].
    exfalso. apply Hx. replace x with (p + (x - p)) by lia. apply mptr_acc; auto. lia.
Qed.
Lemma rel_load w q : w <= 32 -> okp q -> rel any (load w q).
Proof. intros Hw Hq. destruct q; cbn [load okp] in *; [apply rel_get_gpr|apply rel_hload; auto]. Qed.
Lemma rel_store w q v : w <= 32 -> okp q -> rel any (store w q v).
Proof. intros Hw Hq. destruct q; cbn [store okp] in *; [apply rel_set_gpr|apply rel_hstore; auto]. Qed.
Lemma rel_getptr sg o : rel mptr (getptr E sg o).
Proof.
  intros s1 s2 S. pose proof S as [[(M1 & S2 & A) Fr] Dm]. unfold getptr. cbv zeta. rewrite S2. cbn [ar with_host set_ar a_hmem mtab]. rewrite M1.
  set (addr := wrap 32 (sg * 16 + o)). assert (Ha : 0 <= addr) by (apply Z.mod_pos_bound; reflexivity).
  destruct (Z.ltb_spec (addr / 4096) 272) as [Hb|]; [|split; [reflexivity|discriminate]].
  destruct (null_check E && negb (zero_null_ok E && (addr / 4096 =? 0)) && (mt (addr / 4096) =? 0)) eqn:Hn.
  - split; [reflexivity|]. rewrite S2 in S. exact S.
  - split; [reflexivity|]. rewrite S2 in S. split; [|exact S]. exists (addr / 4096).
    pose proof (Z.mod_pos_bound addr 4096 ltac:(lia)). pose proof (Z.div_pos addr 4096 Ha ltac:(lia)).
    split; [lia|]. split; [|lia]. intros HN. rewrite HN in Hn. cbn [andb] in Hn. destruct (zero_null_ok E); cbn [andb negb] in *; lia.
Qed.
Lemma blind_sreg c : blind (sreg_of c).
Proof. intros h a. unfold sreg_of. destruct c as [|[[[]|[]|]|[[]|[]|]|]|]; reflexivity. Qed.
Lemma rel_getseg c : rel any (getseg c).
Proof.
  intros s1 s2 S. pose proof S as [[(M1 & S2 & A) Fr] Dm]. unfold getseg. replace (sreg_of c (ar s2)) with (sreg_of c (ar s1)) by (rewrite S2; symmetry; apply blind_sreg).
  destruct (sreg_of c (ar s1)); [|split; [reflexivity|discriminate]]. split; [reflexivity|]. split; [exact I|exact S].
Qed.
Lemma rel_chkseg c : rel any (chkseg c).
Proof.
  intros s1 s2 S. pose proof S as [[(M1 & S2 & A) Fr] Dm]. unfold chkseg. replace (sreg_of c (ar s2)) with (sreg_of c (ar s1)) by (rewrite S2; symmetry; apply blind_sreg).
  destruct (sreg_of c (ar s1)); [|split; [reflexivity|discriminate]]. split; [reflexivity|]. split; [exact I|exact S].
Qed.
Lemma rel_setseg c v : rel any (setseg c v).
Proof.
  assert (H : forall f, (forall a, mtab (f a) = mtab a /\ hmem (f a) = hmem a /\ forall h, f (a_hmem h a) = a_hmem h (f a)) ->
    rel any (fun s => Ok tt (set_ar (f (ar s)) s))) by (intros f; exact (rel_upd_ar f)).
  unfold setseg, sreg_set. destruct c as [|[[[]|[]|]|[[]|[]|]|]|];
  first [ exact (rel_undef any UbSegReg ltac:(discriminate)) | apply (H (a_es (wrap 16 v))) | apply (H (a_cs (wrap 16 v))) | apply (H (a_ss (wrap 16 v)))
        | apply (H (a_ds (wrap 16 v))) | apply (H (a_fs (wrap 16 v))) | apply (H (a_gs (wrap 16 v))) ];
  intros; split; try reflexivity; split; reflexivity.
Qed.
Lemma rel_io_in w p : rel any (io_in E w p).
Proof.
  intros s1 s2 S. pose proof S as [[(M1 & S2 & A) Fr] Dm]. unfold io_in. cbv zeta. rewrite S2. cbn. split; [reflexivity|]. split; [exact I|].
  split; [split; [split; [exact M1|split; [reflexivity|exact A]]|exact Fr]|exact Dm].
Qed.
Lemma rel_io_out w p v : rel any (io_out w p v).
Proof.
  intros s1 s2 S. pose proof S as [[(M1 & S2 & A) Fr] Dm]. unfold io_out. rewrite S2. cbn. split; [reflexivity|]. split; [exact I|].
  split; [split; [split; [exact M1|split; [reflexivity|exact A]]|exact Fr]|exact Dm].
Qed.
Lemma rel_hle n : rel any (call_hle E n).
Proof.
  intros s1 s2 S. pose proof S as [[SI Fr] Dm]. pose proof SI as (M1 & S2 & A). unfold call_hle. cbv zeta.
  replace (hle (ar s2)) with (hle (ar s1)) by (rewrite S2; reflexivity).
  destruct (hle (ar s1) n =? 0); (split; [reflexivity|split; [exact I|]]); [exact S|].
  destruct (HC (hle (ar s1) n) n mt s1 s2 SI) as (S3 & F3 & D3). split; [split; [exact S3|]|intros x Hx; apply D3, Dm, Hx].
  intros x Hx. destruct (F3 x Hx) as [-> ->]. apply Fr, Hx.
Qed.
Lemma rel_opw : rel (fun w => w <= 32) opw.
Proof. unfold opw. eapply rel_bind; [apply rel_getD|]. intros b _. apply rel_ret. destruct b; lia. Qed.

Definition okrm (rm : ptr * ptr) : Prop := okp (fst rm) /\ okp (snd rm).
Ltac side := first [assumption | exact I | lia | (match goal with H : okrm ?x |- okp (fst ?x) => apply H | H : okrm ?x |- okp (snd ?x) => apply H end) ].
Ltac step :=
  lazymatch goal with
  | |- rel _ (bind _ _) => eapply rel_bind; [|intros ? ?]
  | |- rel _ (ret _) => first [apply (rel_ret any), any_I | apply rel_ret; side]
  | |- rel _ (err _) => apply rel_err
  | |- rel _ (undef _) => apply rel_undef; discriminate
  | |- rel _ (getA _) => geta
  | |- rel _ (getD _) => apply rel_getD
  | |- rel _ (upd_dc _) => apply rel_upd_dc
  | |- rel _ (hload _ _) => apply rel_hload; side
  | |- rel _ (hstore _ _ _) => apply rel_hstore; side
  | |- rel _ (getptr _ _ _) => apply rel_getptr
  | |- rel _ (getseg _) => apply rel_getseg
  | |- rel _ (chkseg _) => apply rel_chkseg
  | |- rel _ (setseg _ _) => apply rel_setseg
  | |- rel _ (load _ _) => apply rel_load; side
  | |- rel _ (store _ _ _) => apply rel_store; side
  | |- rel _ (io_in _ _ _) => apply rel_io_in
  | |- rel _ (io_out _ _ _) => apply rel_io_out
  | |- rel _ (call_hle _ _) => apply rel_hle
  | |- rel _ (if ?b then _ else _) => destruct b
  | |- rel _ (let '(_, _) := ?e in _) => destruct e
  | |- rel _ (match ?e with _ => _ end) => destruct e
  | |- rel _ (let _ := _ in _) => cbv zeta
  | |- rel _ (set_gpr _ _ _) => apply rel_set_gpr
  | |- rel _ (setW _ _) => apply rel_set_gpr
  | |- rel _ (setL _ _) => apply rel_set_gpr
  | |- rel _ (setH _ _) => apply rel_set_gpr
  | |- rel _ (set_ip _) => apply rel_set_ip
  | |- rel _ (set_cs _) => apply rel_set_cs
  | |- rel _ (set_flags _) => apply rel_set_flags
  | |- rel _ (get_gpr _ _) => apply rel_get_gpr
  | |- rel _ (getW _) => apply rel_get_gpr
  | |- rel _ (getDw _) => apply rel_get_gpr
  | |- rel _ (getL _) => apply rel_get_gpr
  | |- rel _ (getH _) => apply rel_get_gpr
  | |- rel _ getflags => geta
  | |- rel _ next_ip => unfold next_ip
  | |- rel _ dont_change_ip => apply rel_upd_dc
  | |- rel _ opw => apply rel_opw
  | |- rel _ (upd_flags _) => unfold upd_flags
  end.
Lemma rel_rd w sg o : w <= 32 -> rel any (rd E w sg o).
Proof. intros. unfold rd. repeat step. Qed.
Lemma rel_wr w sg o v : w <= 32 -> rel any (wr E w sg o v).
Proof. intros. unfold wr. repeat step. Qed.
Ltac step1 := lazymatch goal with |- rel _ (rd _ _ _ _) => apply rel_rd; side | |- rel _ (wr _ _ _ _ _) => apply rel_wr; side | _ => step end.
Lemma rel_fetch w : w <= 32 -> rel any (fetch E w). Proof. intros. unfold fetch. repeat step1. Qed.
Lemma rel_fetch8s : rel any (fetch8s E). Proof. unfold fetch8s. eapply rel_bind; [apply (rel_fetch 8); lia|intros; apply rel_ret; exact I]. Qed.
Lemma rel_get_modrm : rel any (get_modrm E). Proof. unfold get_modrm. eapply rel_bind; [apply (rel_fetch 8); lia|intros; apply rel_ret; exact I]. Qed.
Lemma rel_push v : rel any v -> rel any (push E v).
Proof. intros. unfold push. repeat (first [eassumption|step1]). Qed.
Lemma rel_pop : rel any (pop E). Proof. unfold pop. repeat step1. Qed.
Ltac step2 :=
  lazymatch goal with
  | |- rel _ (fetch8 _) => apply (rel_fetch 8); lia
  | |- rel _ (fetch16 _) => apply (rel_fetch 16); lia
  | |- rel _ (fetch32 _) => apply (rel_fetch 32); lia
  | |- rel _ (fetch _ _) => apply rel_fetch; side
  | |- rel _ (fetch8s _) => apply rel_fetch8s
  | |- rel _ (get_modrm _) => apply rel_get_modrm
  | |- rel _ (push _ _) => apply rel_push
  | |- rel _ (pop _) => apply rel_pop
  | _ => step1
  end.
Lemma rel_ea m b : rel any (ea_segment m b). Proof. unfold ea_segment. repeat step2. Qed.
Lemma rel_dofunc m b d : rel any (dofunc E m b d).
Proof.
  unfold dofunc. eapply rel_bind; [apply rel_ea|intros sg _]. eapply (rel_bind any); [|intros; apply rel_ret; exact I].
  repeat step2.
Qed.
Lemma rel_dofunc32 m b d : rel any (dofunc32 E m b d).
Proof.
  unfold dofunc32. eapply rel_bind; [apply rel_ea|intros sg _]. eapply (rel_bind any); [|intros; apply rel_ret; exact I].
  unfold sib_index. repeat step2.
Qed.
Lemma rel_mmm m : rel any (get_mmm E m).
Proof.
  unfold get_mmm. eapply rel_bind; [apply rel_getD|intros a32 _].
  destruct a32; repeat (lazymatch goal with |- rel _ (dofunc _ _ _ _) => apply rel_dofunc | |- rel _ (dofunc32 _ _ _ _) => apply rel_dofunc32 | _ => step2 end).
Qed.
Ltac step3 := lazymatch goal with |- rel _ (get_mmm _ _) => apply rel_mmm | _ => step2 end.
Lemma okp_regB n : okp (regB n). Proof. exact I. Qed.
Lemma okp_regW n : okp (regW n). Proof. exact I. Qed.
Lemma rel_modm m : rel okp (decode_modm E m).
Proof.
  unfold decode_modm. destruct (_ =? 3); [apply rel_ret; exact I|]. eapply rel_bind; [apply rel_mmm|intros so _].
  eapply rel_bind; [apply rel_getptr|]. intros p Hp. apply rel_ret. exact Hp.
Qed.
Lemma rel_modmx m : rel okp (decode_modmx E m).
Proof.
  unfold decode_modmx. destruct (_ =? 3); [apply rel_ret; exact I|]. eapply rel_bind; [apply rel_mmm|intros so _].
  destruct (_ =? 4095); [apply rel_err|]. eapply rel_bind; [apply rel_getptr|]. intros p Hp. apply rel_ret. exact Hp.
Qed.
Lemma rel_parse : rel okrm (parse_modrm E).
Proof. unfold parse_modrm. eapply rel_bind; [apply rel_get_modrm|intros m _]. eapply rel_bind; [apply rel_modm|]. intros q Hq. apply rel_ret. split; [exact I|exact Hq]. Qed.
Lemma rel_parsex : rel okrm (parse_modrmx E).
Proof. unfold parse_modrmx. eapply rel_bind; [apply rel_get_modrm|intros m _]. eapply rel_bind; [apply rel_modmx|]. intros q Hq. apply rel_ret. split; [exact I|exact Hq]. Qed.
Lemma rel_nocheck : rel any (get_modrm_nocheck E).
Proof.
  intros s1 s2 S. pose proof (rel_get_modrm s1 s2 S) as H. unfold get_modrm_nocheck.
  destruct (get_modrm E s1), (get_modrm E s2); try tauto. split; [reflexivity|discriminate].
Qed.
Ltac step4 :=
  lazymatch goal with
  | |- rel _ (decode_modm _ _) => apply rel_modm
  | |- rel _ (decode_modmx _ _) => apply rel_modmx
  | |- rel _ (parse_modrm _) => apply rel_parse
  | |- rel _ (parse_modrmx _) => apply rel_parsex
  | |- rel _ (get_modrm_nocheck _) => apply rel_nocheck
  | |- rel _ (alu_vals _ _ _ _ _) => unfold alu_vals
  | |- rel _ (alu2 _ _ _ _) => unfold alu2
  | |- rel _ (alu2i _ _ _ _) => unfold alu2i
  | |- rel _ (alu1 _ _ _) => unfold alu1
  | |- rel _ (misc_select _ _ _ _) => unfold misc_select
  | |- rel _ (mul_body _ _) => unfold mul_body
  | |- rel _ (imul_body _ _) => unfold imul_body
  | |- rel _ (div_body _ _) => unfold div_body
  | |- rel _ (idiv_body _ _) => unfold idiv_body
  | |- rel _ (imul2 _ _ _) => unfold imul2
  | |- rel _ (do_shift _ _ _ _) => unfold do_shift
  | |- rel _ (do_dbl _ _ _ _ _) => unfold do_dbl
  | |- rel _ (parse_farptr _) => unfold parse_farptr
  | |- rel _ (call_interrupt _ _) => unfold call_interrupt
  | |- rel _ (jump_if _ _) => unfold jump_if
  | |- rel _ (loop_with _ _) => unfold loop_with
  | |- rel _ data_seg => unfold data_seg
  | |- rel _ (moffs _) => unfold moffs
  | |- rel _ (copy _ _ _) => unfold copy
  | |- rel _ (peek8 _) => unfold peek8
  | |- rel _ (xchg _ _ _) => unfold xchg
  | |- rel _ (pop_to _ _) => unfold pop_to
  | |- rel _ (push_imm _ _) => unfold push_imm
  | |- rel _ (fetch _ (if ?b then _ else _)) => destruct b
  | _ => step3
  end.
Lemma rel_enter_loop n : rel any (enter_loop E n).
Proof. induction n as [|n IH]; cbn [enter_loop]; [apply rel_ret; exact I|]. repeat (first [exact IH|step4]). Qed.
Lemma rel_str_body o w a b c d : w <= 32 -> rel any (str_body E o w a b c d). Proof. intros. unfold str_body. destruct o; repeat step4. Qed.
Lemma rel_str_loop n : forall o w m a b c d, w <= 32 -> rel any (str_loop E n o w m a b c d).
Proof.
  induction n as [|n IH]; intros; cbn [str_loop]; [apply rel_fuel|].
  repeat (lazymatch goal with |- rel _ (str_body _ _ _ _ _ _ _) => apply rel_str_body; assumption | |- rel _ (str_loop _ _ _ _ _ _ _ _ _) => apply IH; assumption | _ => step4 end).
Qed.
Lemma rel_str o wide : rel any (x_str E o wide).
Proof.
  unfold x_str. eapply rel_bind; [apply rel_opw|intros ow Hw]. cbv beta in Hw. cbv zeta. assert (Hw' : (if wide then ow else 8) <= 32) by (destruct wide; lia).
  repeat (lazymatch goal with |- rel _ (str_loop _ _ _ _ _ _ _ _ _) => apply rel_str_loop; assumption | |- rel _ (if str_di _ then _ else ret 0) => apply (rel_any any); destruct (str_di _) | |- rel _ (if str_si _ then _ else ret 0) => apply (rel_any any); destruct (str_si _)| _ => step4 end).
Qed.
Lemma rel_exec1 o p : rel any (exec1 E o p).
Proof.
  destruct o; cbn [exec1];
  try apply rel_str;
  try (match goal with |- rel _ ?h => let k := match h with ?f _ _ _ => f | ?f _ _ => f | ?f _ => f end in
       let k := match k with ?f _ => f | _ => k end in unfold k end); repeat step4;
  try (unfold x_out_dxa, x_out_dxax, x_cbw, x_cwd, x_ovr_op, x_ovr_addr; repeat step4; fail).
  - apply rel_err.
  - apply rel_enter_loop.
  - apply rel_err.
Qed.
Lemma rel_exec o p : rel any (exec E o p).
Proof.
  destruct o; try (unfold exec; apply rel_exec1).
  unfold exec. eapply rel_bind; [apply (rel_fetch 8); lia|intros b _]. destruct (ca_op0F b); [apply rel_exec1|apply rel_err].
Qed.
Lemma rel_once : rel any (op_once E).
Proof.
  unfold op_once, op_param. eapply rel_bind; [apply (rel_fetch 8); lia|intros b _]. destruct (b =? 241); [apply rel_err|].
  destruct (ca_op b) as [e|]; [|apply rel_err]. eapply (rel_bind any); [|intros; apply rel_exec].
  repeat step4.
Qed.
Lemma rel_loop n : rel any (op_loop E n).
Proof.
  induction n as [|n IH]; intros s1 s2 S; cbn [op_loop]; [exact I|]. pose proof (rel_once s1 s2 S) as H.
  destruct (op_once E s1) as [x t1|c t1|r|], (op_once E s2) as [y t2|d t2|r'|]; try tauto.
  destruct H as [<- S']. destruct (c =? E_CONTINUE); [exact (IH t1 t2 S')|auto].
Qed.
Lemma rel_advance : rel any advance_ip. Proof. unfold advance_ip. repeat step4. Qed.
Lemma rel_icount n : rel any (modify (set_icount n)).
Proof. apply rel_modify. intros s. split; [reflexivity|]. split; reflexivity. Qed.
Lemma rel_lastnull n : rel any (modify (set_lastnull n)).
Proof. apply rel_modify. intros s. split; [reflexivity|]. split; reflexivity. Qed.
Lemma rel_null cs ip : rel any (null_hack E cs ip).
Proof.
  unfold null_hack. repeat (lazymatch goal with |- rel _ (gets lastnull) => apply rel_gets; reflexivity | |- rel _ (modify _) => apply rel_lastnull | _ => step4 end).
Qed.
Lemma rel_dump n : forall cs i, rel any (dump_bytes E n cs i).
Proof. induction n as [|n IH]; intros; cbn [dump_bytes]; [apply rel_ret; exact I|]. eapply rel_bind; [apply rel_rd; lia|intros; apply IH]. Qed.
Lemma rel_trace cs ip : rel any (trace_dump E cs ip).
Proof.
  unfold trace_dump. repeat (lazymatch goal with |- rel _ (gets dbg) => apply rel_gets; reflexivity | |- rel _ (dump_bytes _ _ _ _) => apply rel_dump | _ => step4 end).
Qed.
Lemma rel_do : rel any (do_opcode E).
Proof.
  unfold do_opcode. repeat (lazymatch goal with
   | |- rel _ (gets icount) => apply rel_gets; reflexivity | |- rel _ (modify (set_icount _)) => apply rel_icount
   | |- rel _ (op_loop _ _) => apply rel_loop | |- rel _ advance_ip => apply rel_advance | |- rel _ (null_hack _ _ _) => apply rel_null
   | |- rel _ (trace_dump _ _ _) => apply rel_trace
   | _ => step4 end).
Qed.
Lemma rel_callint n : rel any (int_callint E n).
Proof. unfold int_callint. repeat step4. Qed.
Lemma rel_iret : rel any (x_iret E). Proof. apply (rel_exec1 OIret 0). Qed.
Lemma rel_run : rel any (run_one E).
Proof.
  intros s1 s2 S. pose proof S as [[(M1 & S2 & A) Fr] Dm]. unfold run_one. cbv zeta.
  replace (r_ip (ar s2)) with (r_ip (ar s1)) by (rewrite S2; reflexivity).
  replace (r_cs (ar s2)) with (r_cs (ar s1)) by (rewrite S2; reflexivity).
  destruct ((r_ip (ar s1) =? 65535) && (r_cs (ar s1) =? 65535)); [split; [reflexivity|exact S]|].
  destruct ((r_cs (ar s1) =? 47104) && (r_ip (ar s1) <? 256)).
  - pose proof (rel_hle (r_ip (ar s1)) s1 s2 S) as H.
    destruct (call_hle E (r_ip (ar s1)) s1) as [x t1|c t1|r|], (call_hle E (r_ip (ar s1)) s2) as [y t2|d t2|r'|]; try tauto.
    destruct H as (_ & _ & S'). pose proof (rel_iret t1 t2 S') as H.
    destruct (x_iret E t1) as [x1 u1|c u1|r|], (x_iret E t2) as [y2 u2|d u2|r'|]; try tauto.
    destruct H as (_ & S''). split; [reflexivity|]. split; [exact I|exact S''].
  - pose proof (rel_do s1 s2 S) as H.
    destruct (do_opcode E s1) as [x t1|c t1|r|], (do_opcode E s2) as [y t2|d t2|r'|]; try tauto.
    destruct H as [<- S']. destruct (c =? E_DIVERR); [exact (rel_callint 0 t1 t2 S')|auto].
Qed.
Lemma rel_call n : rel any (rme_call E n).
Proof.
  induction n as [|n IH]; intros s1 s2 S; cbn [rme_call]; [exact I|]. pose proof (rel_run s1 s2 S) as H.
  destruct (run_one E s1) as [x t1|c t1|r|], (run_one E s2) as [y t2|d t2|r'|]; try tauto.
  - destruct H as (_ & _ & S'). exact (IH t1 t2 S').
  - destruct H as [<- S']. destruct (c =? E_FCNRET); [split; [reflexivity|split; [exact I|exact S']]|auto].
Qed.
Lemma rel_call_int n num : rel any (call_int E n num).
Proof.
  unfold call_int. repeat (lazymatch goal with |- rel _ (int_callint _ _) => apply rel_callint | |- rel _ (rme_call _ _) => apply rel_call | _ => step4 end).
Qed.
End Iso.

Theorem run_isolated E mt s1 s2 : cb_inside E -> same_inside E mt s1 s2 ->
  alike E mt (hmem (ar s1)) (hmem (ar s2)) (run_one E s1) (run_one E s2).
Proof. intros HC S. eapply rel_alike; [apply rel_run, HC|]. split; [split; [exact S|auto]|auto]. Qed.
Theorem call_isolated E mt n s1 s2 : cb_inside E -> same_inside E mt s1 s2 ->
  alike E mt (hmem (ar s1)) (hmem (ar s2)) (rme_call E n s1) (rme_call E n s2).
Proof. intros HC S. eapply rel_alike; [apply rel_call, HC|]. split; [split; [exact S|auto]|auto]. Qed.
Theorem call_int_isolated E mt n num s1 s2 : cb_inside E -> same_inside E mt s1 s2 ->
  alike E mt (hmem (ar s1)) (hmem (ar s2)) (call_int E n num s1) (call_int E n num s2).
Proof. intros HC S. eapply rel_alike; [apply rel_call_int, HC|]. split; [split; [exact S|auto]|auto]. Qed.
Lemma inside_refl E s : same_inside E (mtab (ar s)) s s.
Proof. split; [reflexivity|]. split; [|auto]. destruct s as [a d g n l]. destruct a. reflexivity. Qed.
(** If every accessible byte is backed by host memory, no bad pointer is ever dereferenced. *)
Theorem run_deref E s : cb_inside E -> (forall x, accessible E (mtab (ar s)) x -> hmem (ar s) x <> None) -> run_one E s <> UB UbDeref.
Proof.
  intros HC B R. pose proof (rel_run E (mtab (ar s)) (hmem (ar s)) (hmem (ar s)) HC s s) as H. rewrite R in H.
  destruct H as [_ H]; [split; [split; [apply inside_refl|auto]|auto]|]. apply (H B). reflexivity.
Qed.
Theorem call_deref E n s : cb_inside E -> (forall x, accessible E (mtab (ar s)) x -> hmem (ar s) x <> None) -> rme_call E n s <> UB UbDeref.
Proof.
  intros HC B R. pose proof (rel_call E (mtab (ar s)) (hmem (ar s)) (hmem (ar s)) HC n s s) as H. rewrite R in H.
  destruct H as [_ H]; [split; [split; [apply inside_refl|auto]|auto]|]. apply (H B). reflexivity.
Qed.
