(** Lemmas behind C10-C14. *)
From Verif Require Import Base Cpu Alu Ops Machine Spec SpecOps SpecOps2 SpecSys SpecRun SpecTop PBase PMem PRun PFrame PAlu PExec PTop2 PSmall PAlg PStep PIMov Demo.

(** ** Registers, bit by bit *)
Definition rlow (w n : Z) : Z := if (w =? 8) && (4 <=? n) then 8 else 0.   (* position inside the 32-bit register *)
Definition rnum (w n : Z) : Z := if (w =? 8) && (4 <=? n) then n - 4 else n.
Lemma rpos_split w n : width w -> 0 <= n < 8 -> rpos w n = 32 * rnum w n + rlow w n.
Proof. intros Hw Hn. unfold rpos, rnum, rlow. destruct (w =? 8) eqn:?; [|cbn; lia]. destruct (n <? 4) eqn:?, (4 <=? n) eqn:?; cbn; lia. Qed.
Lemma gpr_with_reg w n v a m : width w -> 0 <= n < 8 -> 0 <= m < 8 -> inrange w v ->
  if m =? rnum w n then bits_replaced (gpr m (with_reg w n v a)) (gpr m a) v (rlow w n) w
  else gpr m (with_reg w n v a) = gpr m a.
Proof.
  intros Hw Hn Hm Hv. rewrite !gpr_getf, gprs_with_reg by auto. pose proof (wpos w Hw) as Hp.
  pose proof (rpos_split w n Hw Hn) as Hs.
  assert (Hl : 0 <= rlow w n /\ rlow w n + w <= 32).
  { unfold rlow. destruct Hw as [->|[->| ->]]; cbn; destruct (4 <=? n); cbn; lia. }
  assert (Hr : 0 <= rnum w n < 8) by (unfold rnum; destruct (w =? 8); cbn; [destruct (4 <=? n) eqn:?|]; lia).
  destruct (Z.eqb_spec m (rnum w n)) as [->|Hne].
  - intros i Hi. rewrite !getf_testbit by lia.
    destruct (i <? 32) eqn:H32.
    + cbn [andb]. rewrite setf_testbit by lia.
      replace ((rpos w n <=? i + 32 * rnum w n) && (i + 32 * rnum w n <? rpos w n + w)) with ((rlow w n <=? i) && (i <? rlow w n + w)) by lia.
      destruct ((rlow w n <=? i) && (i <? rlow w n + w)) eqn:Hc; [|reflexivity]. f_equal. lia.
    + cbn [andb]. replace ((rlow w n <=? i) && (i <? rlow w n + w)) with false by lia. reflexivity.
  - apply getf_setf_disjoint; lia.
Qed.

(** ** Loads and stores through Read/Write *)
Lemma rd_state E base s w seg ofs : flat E base (ar s) -> width w -> inrange 16 seg -> inrange 16 ofs ->
  rd E w seg ofs s = Ok (mem w (ar s) (lin seg ofs)) s.
Proof. intros. destruct s as [a d g n l]. rewrite (rd_flat E base) by auto. rewrite wrap_small by auto. reflexivity. Qed.
Lemma wr_state E base s w seg ofs v : flat E base (ar s) -> width w -> inrange 16 seg -> inrange 16 ofs ->
  exists s', wr E w seg ofs v s = Ok tt s' /\ same (ar s') (with_mem w (lin seg ofs) v (ar s)) /\
    dc s' = dc s /\ dbg s' = dbg s /\ icount s' = icount s /\ lastnull s' = lastnull s.
Proof.
  intros F Hw Hs Ho. destruct s as [a d g n l]. cbn [ar dc dbg icount lastnull] in *.
  destruct (inmem_lin w seg ofs Hw Hs Ho) as [H1 H2]. pose proof (wr_flat E base a d g n l w seg ofs v F Hw Hs) as H.
  rewrite wrap_small in H by auto. eexists. split; [exact H|]. cbn [ar dc dbg icount lastnull].
  split; [eapply smem_same; eauto|auto].
Qed.

Lemma same_gpr a b m : same a b -> gpr m a = gpr m b.
Proof. intros []. unfold gpr. congruence. Qed.
(** What is left of [executes] for a register write. *)
Lemma executes_reg E s bs w n v : width w -> 0 <= n < 8 -> inrange w v -> lastnull s = false \/ (blen bs <> 2) \/ hd 0 bs <> 0 -> code (ar s) bs ->
  executes E s bs (with_reg w n v (ar s)) ->
  exists s', run_one E s = Ok tt s' /\
    (forall m, 0 <= m < 8 -> if m =? rnum w n then bits_replaced (gpr m (ar s')) (gpr m (ar s)) v (rlow w n) w else gpr m (ar s') = gpr m (ar s)) /\
    same (ar s') (a_gprs (gprs (ar s')) (next bs (ar s) (ar s))).
Proof.
  intros Hw Hn Hv Hz [_ Hc] (s' & R & S & _). exists s'. split; [|split].
  - assert (N : lastnull s && is_null (ar s) (next bs (ar s) (with_reg w n v (ar s))) bs = false).
    { destruct Hz as [->|[Hz|Hz]]; [reflexivity| |].
      - unfold is_null. replace (blen bs =? 2) with false by lia. apply andb_false_r.
      - destruct bs as [|b0 t]; [cbn in Hz; lia|]. cbn [hd] in Hz. specialize (Hc 0%nat b0 eq_refl). rewrite Z.add_0_r in Hc.
        unfold is_null. replace (byte (next (b0 :: t) (ar s) (with_reg w n v (ar s))) (pc (ar s))) with b0.
        + replace (b0 =? 0) with false by lia. rewrite andb_false_r. cbn [andb]. apply andb_false_r.
        + rewrite <- Hc. unfold byte, host. cbn [next a_ip mtab hmem]. unfold with_reg, with_gpr. destruct (w =? 8); [destruct (n <? 4)|]; reflexivity. }
    rewrite N in R. exact R.
  - intros m Hm. pose proof (gpr_with_reg w n v (ar s) m Hw Hn Hm Hv) as G. rewrite (same_gpr _ _ m S).
    change (gpr m (next bs (ar s) (with_reg w n v (ar s)))) with (gpr m (with_reg w n v (ar s))). exact G.
  - destruct S as [Sg Sss Sds Ses Sfs Sgs Scs Sip Sfl Scpu Smt Shle Smem Sio].
    assert (H : with_reg w n v (ar s) = a_gprs (gprs (with_reg w n v (ar s))) (ar s)) by (rewrite with_reg_setf by auto; reflexivity).
    rewrite H in *. constructor; auto.
Qed.

(** ** NULL blocks *)
Lemma rd_null E s w seg ofs : null_check E = true -> inrange 16 seg -> inrange 16 ofs ->
  mtab (ar s) (lin seg ofs / 4096) = 0 /\ (zero_null_ok E = true -> lin seg ofs / 4096 <> 0) -> rd E w seg ofs s = Err E_BADMEM s.
Proof.
  intros HE Hs Ho [U1 U2]. unfold rd, bind. rewrite wrap_small by exact Ho.
  assert (Hb : wrap 32 (seg * 16 + ofs) = lin seg ofs).
  { unfold inrange in *. rewrite wrap_small by (unfold inrange; lia). unfold lin. lia. }
  rewrite getptr_null; rewrite ?Hb; auto. unfold lin. unfold inrange in *. apply Z.div_lt_upper_bound; lia.
Qed.
Lemma wr_null E s w seg ofs v : null_check E = true -> inrange 16 seg -> inrange 16 ofs ->
  mtab (ar s) (lin seg ofs / 4096) = 0 /\ (zero_null_ok E = true -> lin seg ofs / 4096 <> 0) -> wr E w seg ofs v s = Err E_BADMEM s.
Proof.
  intros HE Hs Ho [U1 U2]. unfold wr, bind. rewrite wrap_small by exact Ho.
  assert (Hb : wrap 32 (seg * 16 + ofs) = lin seg ofs).
  { unfold inrange in *. rewrite wrap_small by (unfold inrange; lia). unfold lin. lia. }
  rewrite getptr_null; rewrite ?Hb; auto. unfold lin. unfold inrange in *. apply Z.div_lt_upper_bound; lia.
Qed.

(** ** Stores and loads *)
Lemma store_load E base s w seg1 ofs1 seg2 ofs2 v : flat E base (ar s) -> width w ->
  inrange 16 seg1 -> inrange 16 ofs1 -> inrange 16 seg2 -> inrange 16 ofs2 -> inrange w v ->
  16 * seg1 + ofs1 = 16 * seg2 + ofs2 ->
  exists s', wr E w seg1 ofs1 v s = Ok tt s' /\ rd E w seg2 ofs2 s' = Ok v s'.
Proof.
  intros F Hw H1 H2 H3 H4 Hv He. destruct (wr_state E base s w seg1 ofs1 v F Hw H1 H2) as (s' & R & S & _).
  exists s'. split; [exact R|]. pose proof (inmem_lin w seg1 ofs1 Hw H1 H2) as Hi.
  assert (F' : flat E base (ar s')). { eapply same_flat; [apply same_sym, S|]. apply wmem_flat; auto. }
  rewrite (rd_state E base) by auto. f_equal. rewrite (same_mem _ _ _ _ S). unfold lin at 2. rewrite <- He. fold (lin seg1 ofs1).
  eapply mem_same; eauto.
Qed.
Lemma store_bytes_rd E base s w seg1 ofs1 seg2 ofs2 v : flat E base (ar s) -> width w ->
  inrange 16 seg1 -> inrange 16 ofs1 -> inrange 16 seg2 -> inrange 16 ofs2 ->
  let i := (16 * seg2 + ofs2) - (16 * seg1 + ofs1) in
  exists s' b, wr E w seg1 ofs1 v s = Ok tt s' /\ rd E 8 seg2 ofs2 s = Ok b s /\
    rd E 8 seg2 ofs2 s' = Ok (if (0 <=? i) && (i <? w / 8) then (v / 256 ^ i) mod 256 else b) s'.
Proof.
  intros F Hw H1 H2 H3 H4 i. destruct (wr_state E base s w seg1 ofs1 v F Hw H1 H2) as (s' & R & S & _).
  pose proof (inmem_lin w seg1 ofs1 Hw H1 H2) as Hi. pose proof (inmem_lin 8 seg2 ofs2 width8 H3 H4) as [Hj1 Hj2]. change (8 / 8) with 1 in Hj2.
  assert (F' : flat E base (ar s')). { eapply same_flat; [apply same_sym, S|]. apply wmem_flat; auto. }
  exists s', (byte (ar s) (lin seg2 ofs2)). split; [exact R|].
  rewrite !(rd_state E base) by (auto; apply width8). rewrite !mem8. split; [reflexivity|]. f_equal.
  rewrite (same_byte _ _ _ S). rewrite (byte_wmem E base) by (auto; lia). fold (lin seg2 ofs2) (lin seg1 ofs1) in i.
  replace ((lin seg1 ofs1 <=? lin seg2 ofs2) && (lin seg2 ofs2 <? lin seg1 ofs1 + w / 8)) with ((0 <=? i) && (i <? w / 8)) by lia.
  destruct ((0 <=? i) && (i <? w / 8)) eqn:Hc; [|reflexivity]. fold i. change 256 with (2 ^ 8) at 2. rewrite <- Z.pow_mul_r by lia. reflexivity.
Qed.
Lemma little_endian E base s seg ofs : flat E base (ar s) -> inrange 16 seg -> inrange 16 ofs -> ofs + 3 < 65536 ->
  exists b0 b1 b2 b3,
    rd E 8 seg ofs s = Ok b0 s /\ rd E 8 seg (ofs + 1) s = Ok b1 s /\ rd E 8 seg (ofs + 2) s = Ok b2 s /\ rd E 8 seg (ofs + 3) s = Ok b3 s /\
    rd E 16 seg ofs s = Ok (b0 + 256 * b1) s /\ rd E 32 seg ofs s = Ok (b0 + 256 * b1 + 65536 * b2 + 16777216 * b3) s.
Proof.
  intros F Hs Ho H3. unfold inrange in Ho.
  exists (byte (ar s) (lin seg ofs)), (byte (ar s) (lin seg ofs + 1)), (byte (ar s) (lin seg ofs + 2)), (byte (ar s) (lin seg ofs + 3)).
  rewrite !(rd_state E base) by (auto; unfold inrange, width; lia). rewrite !mem8, mem16, mem32.
  assert (L : forall i, lin seg (ofs + i) = lin seg ofs + i) by (intros; unfold lin; lia). rewrite !L.
  repeat split.
Qed.
Lemma peek_ext n a b : forall x, 0 <= x -> x + Z.of_nat n <= 1114112 -> (forall y, 0 <= y < 1114112 -> byte a y = byte b y) -> peek n a x = peek n b x.
Proof. induction n as [|n IH]; intros x H1 H2 H; cbn [peek]; [reflexivity|]. rewrite H by lia. rewrite IH by (auto; lia). reflexivity. Qed.
Lemma mem_ext w a b x : width w -> inmem w x -> (forall y, 0 <= y < 1114112 -> byte a y = byte b y) -> mem w a x = mem w b x.
Proof. intros Hw [H1 H2] H. unfold mem. pose proof (nbytes_w w Hw) as Hn. unfold nbytes in Hn. apply peek_ext; auto. rewrite Hn. lia. Qed.
Lemma executes_run E s bs a' s' : executes_to E s bs a' -> run_one E s = Ok tt s' -> same (ar s') a'.
Proof. intros (s1 & R & S & _) H. rewrite H in R. destruct (_ && _); [discriminate|]. injection R as <-. exact S. Qed.
Lemma moffs_w (wide : bool) p : width (if wide then osz p else 8).
Proof. unfold width, osz. destruct wide, (p_os p); lia. Qed.
Lemma mov_store_load E base s1 s2 pre1 p1 pre2 p2 o1 h1 o2 h2 (wide : bool) s1' :
  fetched E base s1 pre1 p1 [if wide then 0xA3 else 0xA2; o1; h1] -> p_as p1 = false ->
  fetched E base s2 pre2 p2 [if wide then 0xA1 else 0xA0; o2; h2] -> p_as p2 = false ->
  osz p1 = osz p2 -> run_one E s1 = Ok tt s1' -> (forall x, 0 <= x < 0x110000 -> byte (ar s2) x = byte (ar s1') x) ->
  lin (sreg (data_sreg p1) (ar s1)) (o1 + 256 * h1) = lin (sreg (data_sreg p2) (ar s2)) (o2 + 256 * h2) ->
  let w := if wide then osz p1 else 8 in
  executes E s2 (pre2 ++ [if wide then 0xA1 else 0xA0; o2; h2]) (with_reg w 0 (reg w 0 (ar s1)) (ar s2)).
Proof.
  intros F1 A1 F2 A2 Ho R Hm Hl w. pose proof (moffs_w wide p1) as Hw. fold w in Hw.
  destruct (instr_ctx _ _ _ _ _ _ _ F1) as (Fl & W & Hp1 & C1 & _). destruct (instr_ctx _ _ _ _ _ _ _ F2) as (Fl2 & W2 & _ & C2 & _).
  assert (Hr1 : inrange 16 (o1 + 256 * h1)).
  { eapply (imm_range E base 16 (ar s1) _ [o1; h1]); eauto with width. }
  assert (Hr2 : inrange 16 (o2 + 256 * h2)).
  { eapply (imm_range E base 16 (ar s2) _ [o2; h2]); eauto with width. }
  assert (Hb1 : (o1 + 256 * h1 <? 65536) = true) by (unfold inrange in Hr1; lia).
  assert (Hb2 : (o2 + 256 * h2 <? 65536) = true) by (unfold inrange in Hr2; lia).
  assert (X1 : executes E s1 (pre1 ++ [if wide then 0xA3 else 0xA2; o1; h1])
                 (with_mem w (lin (sreg (data_sreg p1) (ar s1)) (o1 + 256 * h1)) (reg w 0 (ar s1)) (ar s1))).
  { apply (mov_instr E base s1 pre1 p1); [exact F1| |destruct wide; exact Logic.I].
    unfold w. destruct wide; unfold step_mov, asz; rewrite A1; cbn [Z.eqb Pos.eqb Z.leb Z.compare Pos.compare Pos.compare_cont andb imm after]; rewrite Hb1; reflexivity. }
  assert (Hsg : inrange 16 (sreg (data_sreg p1) (ar s1))).
  { unfold data_sreg. destruct W. unfold sreg. destruct (p_seg p1) as [z|]; auto. destruct z as [|[[|[]|]|[|[]|]|]|]; auto. }
  set (x := lin (sreg (data_sreg p1) (ar s1)) (o1 + 256 * h1)) in *.
  assert (Hx : inmem w x) by (apply inmem_lin; auto).
  pose proof (executes_run _ _ _ _ _ X1 R) as S.
  assert (V : mem w (ar s2) x = reg w 0 (ar s1)).
  { rewrite (mem_ext w _ (ar s1') x Hw Hx Hm). rewrite (same_mem _ _ _ _ S).
    rewrite (mem_ext w _ (with_mem w x (reg w 0 (ar s1)) (ar s1)) x Hw Hx) by reflexivity.
    eapply mem_same; eauto. apply reg_range; [exact Hw|lia]. }
  apply (mov_instr E base s2 pre2 p2); [exact F2| |destruct wide; exact Logic.I].
  rewrite <- V, Hl. unfold w. destruct wide; unfold step_mov, asz; rewrite A2, ?Ho; cbn [Z.eqb Pos.eqb Z.leb Z.compare Pos.compare Pos.compare_cont andb imm after]; rewrite Hb2; reflexivity.
Qed.

(** ** MOV reg,imm *)
Lemma prefix_nonzero p b p' : add_prefix p b = Some p' -> b <> 0.
Proof. intros H ->. discriminate H. Qed.
Lemma hd_nonzero pre p op t : prefixes pre = Some p -> op <> 0 -> hd 0 (pre ++ op :: t) <> 0.
Proof.
  destruct pre as [|b pre]; cbn [app hd]; [auto|]. intros H _. unfold prefixes in H. cbn [prefixes_from] in H.
  destruct (add_prefix (mkPfx None false false 0) b) eqn:Hb; [|discriminate]. eapply prefix_nonzero; eauto.
Qed.
Lemma mov_imm_bits E base s pre p bs w n v : fetched E base s pre p bs -> 0 <= n < 8 ->
  (exists t, bs = (0xB0 + n) :: t /\ w = 8 /\ imm 8 t = Some v) \/ (exists t, bs = (0xB8 + n) :: t /\ w = osz p /\ imm w t = Some v) ->
  exists s', run_one E s = Ok tt s' /\
    (forall m, 0 <= m < 8 -> if m =? rnum w n then bits_replaced (gpr m (ar s')) (gpr m (ar s)) v (rlow w n) w else gpr m (ar s') = gpr m (ar s)) /\
    same (ar s') (a_gprs (gprs (ar s')) (next (pre ++ bs) (ar s) (ar s))).
Proof.
  intros F Hn Hb.
  assert (H : exists op t, bs = op :: t /\ op <> 0 /\ width w /\ imm w t = Some v /\ step_mov p (ar s) bs = Some (with_reg w n v (ar s)) /\ operand_ok p (ar s) bs).
  { destruct Hb as [(t & -> & -> & Hi)|(t & -> & -> & Hi)]; eexists; exists t; (split; [reflexivity|]); (split; [lia|]).
    - split; [apply width8|]. split; [exact Hi|].
      assert (H : n = 0 \/ n = 1 \/ n = 2 \/ n = 3 \/ n = 4 \/ n = 5 \/ n = 6 \/ n = 7) by lia.
      destruct H as [->|[->|[->|[->|[->|[->|[->| ->]]]]]]]; (split; [cbn -[imm with_reg]; rewrite Hi; reflexivity|exact Logic.I]).
    - split; [unfold osz; destruct (p_os p); auto with width|]. split; [exact Hi|].
      assert (H : n = 0 \/ n = 1 \/ n = 2 \/ n = 3 \/ n = 4 \/ n = 5 \/ n = 6 \/ n = 7) by lia.
      destruct H as [->|[->|[->|[->|[->|[->|[->| ->]]]]]]]; (split; [cbn -[imm with_reg osz]; rewrite Hi; reflexivity|exact Logic.I]). }
  destruct H as (op & t & -> & H0 & Hw & Hi & Hs & Ho).
  destruct (instr_ctx _ _ _ _ _ _ _ F) as (Fl & W & Hp1 & C1 & _).
  apply executes_reg; auto.
  - eapply (imm_range E base); eauto.
  - right. right. destruct F as (_ & P & _). eapply hd_nonzero; eauto.
  - apply F.
  - eapply mov_instr; eauto.
Qed.
Lemma ea_load E base s pre p t rg sg o : fetched E base s pre p (0x8A :: t) ->
  parse_rm p (ar s) t = Some (rg, RMem sg o, []) -> ea_supported p (ar s) t ->
  executes E s (pre ++ 0x8A :: t) (with_reg 8 rg (byte (ar s) (16 * sg + o)) (ar s)).
Proof.
  intros F Hp Ho. eapply mov_instr; eauto.
  - cbn -[parse_rm with_reg]. rewrite Hp. cbn [rd_rm]. rewrite mem8. reflexivity.
  - split; [exact Ho|discriminate].
Qed.
Lemma ea_store E base s pre p t rg sg o : fetched E base s pre p (0x88 :: t) ->
  parse_rm p (ar s) t = Some (rg, RMem sg o, []) -> ea_supported p (ar s) t ->
  executes E s (pre ++ 0x88 :: t) (with_mem 8 (16 * sg + o) (reg 8 rg (ar s)) (ar s)).
Proof.
  intros F Hp Ho. eapply mov_instr; eauto.
  - cbn -[parse_rm with_mem reg]. rewrite Hp. reflexivity.
  - split; [exact Ho|discriminate].
Qed.
