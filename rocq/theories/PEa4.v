(** Proofs: MOV, XCHG, ALU and LEA with an operand at its real address. *)
From Verif Require Import Base Cpu Alu Ops Machine Spec SpecOps SpecOps2 SpecSys SpecRun SpecStop SpecEa PBase PMem PRun PFrame PAlu PExec PIAlu PIAlu2 PShift PStep PIMov PStop PStop2 PEa PEa2.

Section WithEnv.
Context (E : env) (base : Z).

Definition sreg_m (w n v : Z) (a : arch) : arch := a_gprs (setf (rpos w n) w v (gprs a)) a.
Lemma load_r w n a d g c l : width w -> 0 <= n < 8 -> load w (ptr_of base w (RReg n)) (mkSt a d g c l) = Ok (reg w n a) (mkSt a d g c l).
Proof. intros Hw Hn. rewrite ptr_reg by auto. cbn. unfold get_gpr, getA, gets. cbn. rewrite reg_getf by auto. reflexivity. Qed.
Lemma store_r w n v a d g c l : width w -> store w (ptr_of base w (RReg n)) v (mkSt a d g c l) = Ok tt (mkSt (sreg_m w n v a) d g c l).
Proof. intros Hw. rewrite ptr_reg by auto. reflexivity. Qed.
Lemma sreg_m_flat w n v a : flat E base a -> flat E base (sreg_m w n v a).
Proof. intros F. apply (wr_m_flat E base a w (RReg n) v F). Qed.
Lemma smem_flat' w x v a : flat E base a -> flat E base (smem base w x v a).
Proof. intros F. pose proof (wr_m_flat E base a w (RMem 0 x) v F) as H. cbn [wr_m] in H. replace (lin 0 x) with x in H by (unfold lin; lia). exact H. Qed.
Lemma same_sreg_m w n v a b : flat E base a -> width w -> 0 <= n < 8 -> inrange w v -> same a b -> same (sreg_m w n v a) (with_reg w n v b).
Proof. intros F Hw Hn Hv H. apply (same_wr_m_reg E base a b w n v F Hw Hn Hv H). Qed.
Lemma same_smem w x v a b : flat E base a -> width w -> 0 <= x -> x + w / 8 <= map_size -> inrange w v -> same a b -> same (smem base w x v a) (with_mem w x v b).
Proof.
  intros F Hw H0 H1 Hv H. eapply same_trans; [apply smem_same with (E := E); auto|].
  replace x with (lin 0 x) by (unfold lin; lia). apply (same_wr_rm a b w (RMem 0 x) v), H.
Qed.

Lemma alu_vals_mem k w x src a d g n l : flat E base a -> width w -> 0 <= x -> x + w / 8 <= map_size -> inrange w src -> 0 <= k <= 8 ->
  alu_vals (op_of k) w (PMem (base + x)) (mem w a x) src (mkSt a d g n l) =
  Ok tt (mkSt (let (v, f) := alu_result k w (mem w a x) src (r_flags a) in if (k =? 7) || (k =? 8) then a_flags f a else smem base w x v (a_flags f a)) d g n l).
Proof.
  intros F Hw H0 H1 Hs Hk. unfold alu_vals. msteps.
  rewrite alu_op_ok; auto. 2:{ eapply mem_range; eauto. }
  rewrite alu_writes_k by auto.
  destruct (alu_result k w (mem w a x) src (r_flags a)) as [v f]. msteps.
  destruct ((k =? 7) || (k =? 8)); cbn [negb]; [reflexivity|].
  apply store_x with (E := E); auto with flat.
Qed.
Lemma alu_vals_reg k w m src a d g n l : flat E base a -> width w -> 0 <= m < 8 -> inrange w src -> 0 <= k <= 8 ->
  alu_vals (op_of k) w (ptr_of base w (RReg m)) (reg w m a) src (mkSt a d g n l) =
  Ok tt (mkSt (let (v, f) := alu_result k w (reg w m a) src (r_flags a) in if (k =? 7) || (k =? 8) then a_flags f a else sreg_m w m v (a_flags f a)) d g n l).
Proof.
  intros F Hw Hm Hs Hk. pose proof (alu_vals_ok E base k w (RReg m) src a d g n l F Hw Hm Hs Hk) as H. cbn [rd_rm] in H. rewrite H.
  unfold alu_m. cbn [rd_rm]. destruct (alu_result _ _ _ _ _). reflexivity.
Qed.

Section Ops.
Context (s : st) (pre : list Z) (p : pfx) (bs : list Z) (op : Z) (t : list Z) (rg x : Z).
Context (Hf : fetched E base s pre p bs) (Hbs : bs = op :: t) (Hr : real_address p (ar s) t = Some (rg, x, [])).
Let w := if Z.odd op then osz p else 8.
Context (Hn : Z.odd op = true -> x mod 4096 <> 4095) (Hx : x + w / 8 <= map_size).

Lemma real_facts : flat E base (ar s) /\ wf_regs (ar s) /\ 0 <= rg < 8 /\ 0 <= x /\ width w /\ inrange w (mem w (ar s) x) /\ inrange w (reg w rg (ar s)) /\
  forall Y (f : ptr * ptr -> M Y) g n l,
  bind (if Z.odd op then parse_modrmx E else parse_modrm E) f (mkSt (ar s) (dec_of p (blen pre + 1)) g n l) =
  f (ptr_of base w (RReg rg), PMem (base + x)) (mkSt (ar s) (dec_of p (blen pre + blen bs)) g n l).
Proof.
  subst bs. destruct (instr_ctx _ _ _ _ _ _ _ Hf) as (F & W & Hp & C & Hb).
  assert (C2 : code_from (ar s) (blen pre + 1) t) by (exact C).
  destruct (real_pos E base (ar s) p (blen pre + 1) 0 0 true t rg x [] F W Hp C2 Hr) as [Hx0 Hrg].
  assert (Hw : width w) by (unfold w; destruct (Z.odd op); auto with width).
  assert (Hd : 1 <= w / 8) by (pose proof (width_div w Hw); destruct Hw as [Q|[Q|Q]]; rewrite Q; cbn; lia).
  split; [exact F|]. split; [exact W|]. split; [exact Hrg|]. split; [lia|]. split; [exact Hw|].
  split; [eapply mem_range; eauto; lia|]. split; [apply reg_range; auto|].
  intros Y f g n l. destruct (Z.odd op) eqn:Ho.
  - erewrite bind_ok by (eapply parsex_real; eauto; lia). 
    replace (regW rg) with (ptr_of base w (RReg rg)) by (unfold w, osz; destruct (p_os p); reflexivity).
    do 3 f_equal. rewrite blen_cons. change (blen []) with 0. lia.
  - erewrite bind_ok by (eapply parse8_real; eauto; lia). f_equal. f_equal. rewrite blen_cons. change (blen []) with 0. f_equal. lia.
Qed.
End Ops.

Theorem real_operand s pre p op t rg x a' : fetched E base s pre p (op :: t) -> real_address p (ar s) t = Some (rg, x, []) ->
  let w := if Z.odd op then osz p else 8 in
  (Z.odd op = true -> x mod 4096 <> 4095) -> x + w / 8 <= map_size ->
  on_memory p op rg x (ar s) = Some a' -> executes E s (pre ++ op :: t) a'.
Proof.
  intros Hf Hr w Hn Hx Ha.
  destruct (real_facts s pre p (op :: t) op t rg x Hf eq_refl Hr Hn Hx) as (F & W & Hrg & Hx0 & Hw & Hm & Hv & P). fold w in Hw, Hm, Hv, P.
  assert (Hop : 0 <= op < 256) by (destruct (instr_ctx _ _ _ _ _ _ _ Hf) as (_ & _ & _ & _ & Hb); exact Hb).
  unfold on_memory in Ha. fold w in Ha. cbv zeta in Ha.
  assert (Hpx : Z.odd op = true -> w = osz p) by (unfold w; intros ->; reflexivity).
  assert (Hp8 : Z.odd op = false -> w = 8) by (unfold w; intros ->; reflexivity).
  Ltac st1 := unfold bind; rewrite ?load_r, ?store_r by auto.
  destruct (Z.eqb_spec op 136) as [->|N1]; [|destruct (Z.eqb_spec op 137) as [->|N2]]; cbn [orb] in Ha.
  1-2: injection Ha as <-; cbn [Z.odd Z.eqb] in P.
  { frs Hf; [unfold x_mov_mr, copy; rewrite P; cbn [fst snd]; unfold bind; rewrite load_r by auto; apply store_x with (E := E); auto| | | |].
    - blia.
    - apply smem_flat', F.
    - reflexivity.
    - apply same_smem; auto. apply same_refl. }
  { frs Hf; [unfold x_mov_mrx, copy; rewrite P; cbn [fst snd]; rewrite st_opw; cbn [d_op dec_of]; fold (osz p); rewrite <- (Hpx eq_refl); unfold bind; rewrite load_r by auto; apply store_x with (E := E); auto| | | |].
    - blia.
    - apply smem_flat', F.
    - reflexivity.
    - apply same_smem; auto. apply same_refl. }
  destruct (Z.eqb_spec op 138) as [->|N3]; [|destruct (Z.eqb_spec op 139) as [->|N4]]; cbn [orb] in Ha.
  1-2: injection Ha as <-; cbn [Z.odd Z.eqb] in P.
  { frs Hf; [unfold x_mov_rm, copy; rewrite P; cbn [fst snd]; unfold bind; rewrite (load_x E) by auto; apply store_r; auto| | | |].
    - blia.
    - apply sreg_m_flat, F.
    - reflexivity.
    - apply same_sreg_m; auto. apply same_refl. }
  { frs Hf; [unfold x_mov_rmx, copy; rewrite P; cbn [fst snd]; rewrite st_opw; cbn [d_op dec_of]; fold (osz p); rewrite <- (Hpx eq_refl); unfold bind; rewrite (load_x E) by auto; apply store_r; auto| | | |].
    - blia.
    - apply sreg_m_flat, F.
    - reflexivity.
    - apply same_sreg_m; auto. apply same_refl. }
  destruct (Z.eqb_spec op 134) as [->|N5]; [|destruct (Z.eqb_spec op 135) as [->|N6]]; cbn [orb] in Ha.
  1-2: injection Ha as <-; cbn [Z.odd Z.eqb] in P.
  { frs Hf; [unfold x_xchg_rm, xchg; rewrite P; cbn [fst snd]; unfold bind; rewrite load_r by auto; rewrite (load_x E) by auto; rewrite store_r by auto; apply store_x with (E := E); auto using sreg_m_flat| | | |].
    - blia.
    - apply smem_flat', sreg_m_flat, F.
    - reflexivity.
    - apply same_smem; auto using sreg_m_flat. apply same_sreg_m; auto. apply same_refl. }
  { frs Hf; [unfold x_xchg_rmx, xchg; rewrite st_opw; cbn [d_op dec_of]; fold (osz p); rewrite <- (Hpx eq_refl); rewrite P; cbn [fst snd]; unfold bind; rewrite load_r by auto; rewrite (load_x E) by auto; rewrite store_r by auto; apply store_x with (E := E); auto using sreg_m_flat| | | |].
    - blia.
    - apply smem_flat', sreg_m_flat, F.
    - reflexivity.
    - apply same_smem; auto using sreg_m_flat. apply same_sreg_m; auto. apply same_refl. }
  assert (A1 : forall k ps, 0 <= k <= 8 -> Some ps = Some a' -> ps = (let (r, f) := alu_result k w (mem w (ar s) x) (reg w rg (ar s)) (r_flags (ar s)) in if (k =? 7) || (k =? 8) then a_flags f (ar s) else with_mem w x r (a_flags f (ar s))) ->
    dispatch (op :: t) = Some (OAlu (op_of k) (if Z.odd op then F_MRX else F_MR), 0, 1) -> executes E s (pre ++ op :: t) a').
  { intros k ps Hk [= ->] Hps Hd. eapply (fr_straight E base s pre p (op :: t) _ _ _ (let (v, f) := alu_result k w (mem w (ar s) x) (reg w rg (ar s)) (r_flags (ar s)) in if (k =? 7) || (k =? 8) then a_flags f (ar s) else smem base w x v (a_flags f (ar s))) _ (blen pre + blen (op :: t)) Hf Hd).
    - intros g n l. cbn [exec1].
      destruct (Z.odd op); cbn [x_alu]; rewrite P; cbn [fst snd]; rewrite ?st_opw; cbn [d_op dec_of]; fold (osz p); rewrite <- ?(Hpx eq_refl), <- ?(Hp8 eq_refl); unfold alu2, bind; rewrite (load_x E) by auto; rewrite load_r by auto; apply alu_vals_mem; auto.
    - reflexivity.
    - destruct (alu_result k w (mem w (ar s) x) (reg w rg (ar s)) (r_flags (ar s))) as [v f]. destruct ((k =? 7) || (k =? 8)); [|apply smem_flat']; auto with flat.
    - destruct (alu_result k w (mem w (ar s) x) (reg w rg (ar s)) (r_flags (ar s))) as [v f]. destruct ((k =? 7) || (k =? 8)); reflexivity.
    - pose proof (alu_result_range k w (mem w (ar s) x) (reg w rg (ar s)) (r_flags (ar s)) Hw Hm Hv) as R. rewrite Hps. clear Hps. destruct (alu_result k w _ _ _) as [v f]. cbn [fst] in R.
      destruct ((k =? 7) || (k =? 8)); [apply same_refl|]. apply same_smem; auto with flat. apply same_refl. }
  assert (A2 : forall k ps, 0 <= k <= 8 -> Some ps = Some a' -> ps = (let (r, f) := alu_result k w (reg w rg (ar s)) (mem w (ar s) x) (r_flags (ar s)) in if (k =? 7) || (k =? 8) then a_flags f (ar s) else with_reg w rg r (a_flags f (ar s))) ->
    dispatch (op :: t) = Some (OAlu (op_of k) (if Z.odd op then F_RMX else F_RM), 0, 1) -> executes E s (pre ++ op :: t) a').
  { intros k ps Hk [= ->] Hps Hd. eapply (fr_straight E base s pre p (op :: t) _ _ _ (let (v, f) := alu_result k w (reg w rg (ar s)) (mem w (ar s) x) (r_flags (ar s)) in if (k =? 7) || (k =? 8) then a_flags f (ar s) else sreg_m w rg v (a_flags f (ar s))) _ (blen pre + blen (op :: t)) Hf Hd).
    - intros g n l. cbn [exec1].
      destruct (Z.odd op); cbn [x_alu]; rewrite P; cbn [fst snd]; rewrite ?st_opw; cbn [d_op dec_of]; fold (osz p); rewrite <- ?(Hpx eq_refl), <- ?(Hp8 eq_refl); unfold alu2, bind; rewrite load_r by auto; rewrite (load_x E) by auto; apply alu_vals_reg; auto.
    - reflexivity.
    - destruct (alu_result k w (reg w rg (ar s)) (mem w (ar s) x) (r_flags (ar s))) as [v f]. destruct ((k =? 7) || (k =? 8)); [|apply sreg_m_flat]; auto with flat.
    - destruct (alu_result k w (reg w rg (ar s)) (mem w (ar s) x) (r_flags (ar s))) as [v f]. destruct ((k =? 7) || (k =? 8)); reflexivity.
    - pose proof (alu_result_range k w (reg w rg (ar s)) (mem w (ar s) x) (r_flags (ar s)) Hw Hv Hm) as R. rewrite Hps. clear Hps. destruct (alu_result k w _ _ _) as [v f]. cbn [fst] in R.
      destruct ((k =? 7) || (k =? 8)); [apply same_refl|]. apply same_sreg_m; auto with flat. apply same_refl. }
  destruct (Z.eqb_spec op 132) as [->|N7]; [|destruct (Z.eqb_spec op 133) as [->|N8]]; cbn [orb] in Ha.
  1-2: eapply (A1 8); [lia|exact Ha|destruct (alu_result _ _ _ _ _); reflexivity|reflexivity].
  destruct ((0 <=? op) && (op <? 64) && (op mod 8 <? 4)) eqn:Hz; [|discriminate].
  assert (Hk : 0 <= op / 8 < 8) by lia.
  assert (Hop' : op = 8 * (op / 8) + op mod 8) by (apply Z.div_mod; lia).
  assert (Hf4 : op mod 8 = 0 \/ op mod 8 = 1 \/ op mod 8 = 2 \/ op mod 8 = 3) by lia.
  assert (K78 : (op / 8 =? 7) || (op / 8 =? 8) = (op / 8 =? 7)) by lia.
  destruct (op mod 8 <? 2) eqn:H2.
  - apply (A1 (op / 8) a'); [lia|reflexivity| |].
    + rewrite K78. destruct (alu_result (op / 8) w (mem w (ar s) x) (reg w rg (ar s)) (r_flags (ar s))) as [v f] eqn:Q. injection Ha as <-. reflexivity.
    + clear - Hk Hop' Hf4 H2. revert Hop' Hk Hf4 H2. generalize (op / 8) (op mod 8). intros k m -> Hk Hf4 H2.
      assert (m = 0 \/ m = 1) as [-> | ->] by lia;
      (assert (k = 0 \/ k = 1 \/ k = 2 \/ k = 3 \/ k = 4 \/ k = 5 \/ k = 6 \/ k = 7) as Hc by lia; repeat destruct Hc as [->|Hc]; try subst k; reflexivity).
  - apply (A2 (op / 8) a'); [lia|reflexivity| |].
    + rewrite K78. destruct (alu_result (op / 8) w (reg w rg (ar s)) (mem w (ar s) x) (r_flags (ar s))) as [v f] eqn:Q. injection Ha as <-. reflexivity.
    + clear - Hk Hop' Hf4 H2. revert Hop' Hk Hf4 H2. generalize (op / 8) (op mod 8). intros k m -> Hk Hf4 H2.
      assert (m = 2 \/ m = 3) as [-> | ->] by lia;
      (assert (k = 0 \/ k = 1 \/ k = 2 \/ k = 3 \/ k = 4 \/ k = 5 \/ k = 6 \/ k = 7) as Hc by lia; repeat destruct Hc as [->|Hc]; try subst k; reflexivity).
Qed.

(** LEA. *)
Theorem real_lea s pre p b u o : fetched E base s pre p (141 :: b :: u) -> b / 64 <> 3 -> real_offset p (b / 64) (b mod 8) (ar s) u = Some (o, []) ->
  executes E s (pre ++ 141 :: b :: u) (with_reg (osz p) ((b / 8) mod 8) (low (osz p) o) (ar s)).
Proof.
  intros Hf H3 Ho. destruct (instr_ctx _ _ _ _ _ _ _ Hf) as (F & W & Hp & C & Hb).
  pose proof (code_byte_range E base _ _ _ _ F W C) as Hmb.
  assert (Hg : 0 <= (b / 8) mod 8 < 8) by lia.
  frs Hf.
  - unfold x_lea. erewrite bind_ok by (eapply get_modrm_code; eauto). replace (m_mod (modrm_of b)) with (b / 64) by reflexivity. replace (b / 64 =? 3) with false by lia.
    erewrite bind_ok by (eapply (get_mmm_real E base); eauto; apply (code_from_cons _ _ _ _ C)). rewrite st_opw. cbn [d_op dec_of fst snd]. fold (osz p).
    replace (regW (m_rrr (modrm_of b))) with (ptr_of base (osz p) (RReg ((b / 8) mod 8))) by (unfold osz; destruct (p_os p); reflexivity).
    rewrite store_r by auto with width. reflexivity.
  - blia.
  - apply sreg_m_flat, F.
  - reflexivity.
  - assert (Q : sreg_m (osz p) ((b / 8) mod 8) o (ar s) = sreg_m (osz p) ((b / 8) mod 8) (low (osz p) o) (ar s)).
    { unfold sreg_m. f_equal. unfold setf, low, wrap. rewrite Z.mod_mod by (unfold osz; destruct (p_os p); discriminate). reflexivity. }
    rewrite Q. apply same_sreg_m; auto with width. apply low_range; auto with width. apply same_refl.
Qed.

(** The real address is the manual's in the supported cases. *)
Lemma real_some p a b t rg sg o rest : b / 64 <> 3 -> 0 <= b < 256 -> parse_rm p a (b :: t) = Some (rg, RMem sg o, rest) -> ea_supported p a (b :: t) ->
  exists o', real_offset p (b / 64) (b mod 8) a t = Some (o', rest).
Proof.
  intros H3 Hb Hr Hs. cbn [parse_rm ea_supported] in *. specialize (Hs H3). replace (b / 64 =? 3) with false in Hr by lia. unfold real_offset. destruct (p_as p).
  - destruct Hs as (S1 & S2 & _). unfold sib_ok in S1. unfold ea32 in Hr. cbv zeta in Hr. 
    destruct (Z.eqb_spec (b mod 8) 4) as [H4|H4].
    + destruct (S1 H4) as [M0 _]. rewrite M0 in *. cbn [Z.eqb andb] in *. destruct t as [|sib u]; [discriminate|].
      destruct (sib mod 8 =? 5); cbn [snd] in Hr.
      * unfold add_disp in Hr. destruct (dword u) as [[d r]|]; [|discriminate]. destruct (_ <? _) in Hr; [|discriminate]. injection Hr as _ _ _ <-. eauto.
      * cbn [disp32 Z.eqb add_disp] in Hr. change (disp32 0 u) with (Some (0, u)) in Hr. cbn [add_disp] in Hr. destruct (_ <? _) in Hr; [|discriminate]. injection Hr as _ _ _ <-. eauto.
    + destruct (Z.eqb_spec (b / 64) 0) as [M0|M0].
      * rewrite M0 in *. cbn [andb] in Hr. destruct (b mod 8 =? 5); cbn [snd] in Hr.
        { destruct (dword t) as [[d r]|]; [|discriminate]. destruct (_ <? _) in Hr; [|discriminate]. injection Hr as _ _ _ <-. eauto. }
        { change (disp32 0 t) with (Some (0, t)) in Hr. cbn [add_disp] in Hr. destruct (_ <? _) in Hr; [|discriminate]. injection Hr as _ _ _ <-. eauto. }
      * cbn [andb snd] in Hr. unfold add_disp in Hr. destruct (disp32 (b / 64) t) as [[d r]|]; [|discriminate]. destruct (_ <? _) in Hr; [|discriminate]. injection Hr as _ _ _ <-. eauto.
  - destruct (disp (b / 64) (b mod 8) t) as [[d r]|]; [|discriminate]. injection Hr as _ _ _ <-. eauto.
Qed.
Theorem real_agrees s pre p bs t rg sg o rest off : fetched E base s pre p bs -> code_from (ar s) off t ->
  parse_rm p (ar s) t = Some (rg, RMem sg o, rest) -> ea_supported p (ar s) t -> real_address p (ar s) t = Some (rg, lin sg o, rest).
Proof.
  intros (R & Hp & _) C Hr Hs. destruct R as [F W PC Hc]. apply prefixes_ok in Hp.
  destruct t as [|b t]; [discriminate|]. pose proof (code_byte_range E base (ar s) off b t F W C) as Hb.
  assert (H3 : b / 64 <> 3) by (intros H3; cbn [parse_rm] in Hr; rewrite H3 in Hr; discriminate).
  destruct (real_some p (ar s) b t rg sg o rest H3 Hb Hr Hs) as [o' Ho]. cbn [real_address]. replace (b / 64 =? 3) with false by lia. rewrite Ho.
  pose proof (get_mmm_real E base (ar s) p (off + 1) 0 0 true b t o' rest F W Hp Hb H3 (proj2 (code_from_cons _ _ _ _ C)) Ho) as G1.
  rewrite (get_mmm_rm E base (ar s) p (off + 1) 0 0 true b t rg sg o rest F W Hp Hb H3 (proj2 (code_from_cons _ _ _ _ C)) Hr Hs) in G1.
  injection G1 as <- <-. pose proof (parse_rm_rg _ _ _ _ _ _ _ Hr) as ->. destruct (parse_rm_ok _ _ _ _ _ _ W Hr) as [[Hsg Hoo] _].
  pose proof (lin_bound sg o Hsg Hoo) as L. do 2 f_equal. unfold lin in *. rewrite low_id by (unfold inrange; change (2 ^ 32) with 4294967296; lia). reflexivity.
Qed.
End WithEnv.
