(** Proofs: exactly when an instruction reaches an undefined operation (ModR/M instructions). *)
From Verif Require Import Base Cpu Alu Ops Machine Spec SpecOps SpecOps2 SpecSys SpecRun SpecStop SpecEa SpecUb PBase PMem PRun PFrame PAlu PExec PIAlu PStep PIInt PKeep PKeep2 PKeep3 PTop PTop2 PTop3 PIMov PStop PStop2 PEa PEa2 PEa3 PEa4 PUb.

Definition ubres {X} (x : out X) : option ub := match x with UB r => Some r | _ => None end.
Lemma blen_nonneg t : 0 <= blen t. Proof. unfold blen. lia. Qed.

Lemma dword_split t d r : dword t = Some (d, r) -> exists u, t = u ++ r /\ blen u = 4.
Proof. unfold dword. destruct t as [|b0 [|b1 [|b2 [|b3 u]]]]; try discriminate. intros [= _ <-]. exists [b0; b1; b2; b3]. auto. Qed.
Lemma disp32_split md t d r : disp32 md t = Some (d, r) -> exists u, t = u ++ r /\ 0 <= blen u <= 4.
Proof.
  unfold disp32. destruct (md =? 1); [destruct t as [|b t]; [discriminate|]; intros [= _ <-]; exists [b]; split; [reflexivity|cbn; unfold blen; cbn; lia]|].
  destruct (md =? 2); [intros H; destruct (dword_split _ _ _ H) as (u & -> & L); exists u; split; [reflexivity|lia]|].
  intros [= _ <-]. exists []. split; [reflexivity|cbn; unfold blen; cbn; lia].
Qed.
Lemma disp_split md m t d r : disp md m t = Some (d, r) -> exists u, t = u ++ r /\ 0 <= blen u <= 2.
Proof.
  unfold disp. destruct (md =? 1); [destruct t as [|b t]; [discriminate|]; intros [= _ <-]; exists [b]; split; [reflexivity|cbn; unfold blen; cbn; lia]|].
  destruct (_ || _); [destruct t as [|b [|b1 t]]; try discriminate; intros [= _ <-]; exists [b; b1]; split; [reflexivity|cbn; unfold blen; cbn; lia]|].
  intros [= _ <-]. exists []. split; [reflexivity|cbn; unfold blen; cbn; lia].
Qed.
Lemma real_offset_split p md m a t o r : real_offset p md m a t = Some (o, r) -> exists u, t = u ++ r /\ 0 <= blen u <= 5.
Proof.
  unfold real_offset. destruct (p_as p).
  - destruct (md =? 0).
    + destruct (m =? 4).
      * destruct t as [|sib u]; [discriminate|]. destruct (sib mod 8 =? 5).
        { destruct (dword u) as [[d r']|] eqn:Hd; [|discriminate]. intros [= _ <-]. destruct (dword_split _ _ _ Hd) as (v & -> & L). exists (sib :: v). split; [reflexivity|]. rewrite blen_cons. lia. }
        { intros [= _ <-]. exists [sib]. split; [reflexivity|cbn; unfold blen; cbn; lia]. }
      * destruct (m =? 5).
        { intros H. destruct (dword_split _ _ _ H) as (u & -> & L). exists u. split; [reflexivity|lia]. }
        { intros [= _ <-]. exists []. split; [reflexivity|cbn; unfold blen; cbn; lia]. }
    + destruct (disp32 md t) as [[d u]|] eqn:Hd; [|discriminate]. destruct (disp32_split _ _ _ _ Hd) as (v & -> & L). destruct (m =? 4).
      * destruct u as [|sib u]; [discriminate|]. intros [= _ <-]. exists (v ++ [sib]). split; [rewrite <- app_assoc; reflexivity|]. rewrite blen_app. change (blen [sib]) with 1. lia.
      * intros [= _ <-]. exists v. split; [reflexivity|lia].
  - destruct (disp md m t) as [[d u]|] eqn:Hd; [|discriminate]. intros [= _ <-]. destruct (disp_split _ _ _ _ _ Hd) as (v & -> & L). exists v. split; [reflexivity|lia].
Qed.
Lemma dword_ex t : 4 <= blen t -> exists d r, dword t = Some (d, r).
Proof. unfold blen. destruct t as [|b0 [|b1 [|b2 [|b3 u]]]]; cbn [length]; try (intros; lia). intros _. cbn. eauto. Qed.
Lemma real_offset_ex p md m a t : 5 <= blen t -> exists o r, real_offset p md m a t = Some (o, r).
Proof.
  intros H. unfold real_offset. destruct (p_as p).
  - destruct (md =? 0).
    + destruct (m =? 4).
      * destruct t as [|sib u]; [unfold blen in H; cbn in H; lia|]. rewrite blen_cons in H. destruct (sib mod 8 =? 5); [|eauto].
        destruct (dword_ex u ltac:(lia)) as (d & r & ->). eauto.
      * destruct (m =? 5); [|eauto]. destruct (dword_ex t ltac:(lia)) as (d & r & ->). eauto.
    + assert (K : exists d u, disp32 md t = Some (d, u)).
      { unfold disp32. destruct (md =? 1); [destruct t; [unfold blen in H; cbn in H; lia|eauto]|]. destruct (md =? 2); [apply dword_ex; lia|eauto]. }
      destruct K as (d & u & K). rewrite K. destruct (disp32_split _ _ _ _ K) as (v & -> & L). rewrite blen_app in H.
      destruct (m =? 4); [|eauto]. destruct u as [|sib u]; [unfold blen at 2 in H; cbn in H; lia|eauto].
  - unfold disp. destruct (md =? 1); [destruct t; [unfold blen in H; cbn in H; lia|eauto]|].
    destruct (_ || _); [|eauto]. destruct t as [|b0 [|b1 t]]; [unfold blen in H; cbn in H; lia|unfold blen in H; cbn in H; lia|eauto].
Qed.
Lemma real_rm_ex p a t : 6 <= blen t -> exists rg o r, real_rm p a t = Some (rg, o, r).
Proof.
  intros H. destruct t as [|b u]; [unfold blen in H; cbn in H; lia|]. rewrite blen_cons in H. cbn [real_rm real_address]. destruct (b / 64 =? 3); [eauto|].
  destruct (real_offset_ex p (b / 64) (b mod 8) a u ltac:(lia)) as (o & r & ->). eauto.
Qed.
Lemma real_rm_split p a t rg o r : real_rm p a t = Some (rg, o, r) -> exists u, t = u ++ r /\ 1 <= blen u <= 6.
Proof.
  destruct t as [|b u]; [discriminate|]. cbn [real_rm real_address]. destruct (b / 64 =? 3).
  - intros [= _ _ <-]. exists [b]. split; [reflexivity|cbn; unfold blen; cbn; lia].
  - destruct (real_offset p (b / 64) (b mod 8) a u) as [[x r']|] eqn:Ho; [|discriminate]. intros [= _ _ <-].
    destruct (real_offset_split _ _ _ _ _ _ _ Ho) as (v & -> & L). exists (b :: v). split; [reflexivity|]. rewrite blen_cons. lia.
Qed.

Section WithEnv.
Context (E : env) (base : Z).
Local Notation J := (J E base).
Local Notation okptr := (okptr base).

Definition good (wide : bool) (o : operand) : Prop := match o with InReg _ => True | InMem x => x + 4 <= map_size /\ (wide = true -> x mod 4096 <> 4095) end.

Lemma safe_opw (Q : Z -> st -> Prop) s : (forall w, width w -> Q w s) -> safe opw Q s.
Proof. intros H. unfold opw. apply safe_bind, safe_gets, safe_ret. destruct (d_op (dc s)); apply H; auto with width. Qed.
Lemma safe_if X (b : bool) (m1 m2 : M X) (Q : X -> st -> Prop) s : safe m1 Q s -> safe m2 Q s -> safe (if b then m1 else m2) Q s.
Proof. destruct b; auto. Qed.
Lemma ubres_safe X (m : M X) (Q : X -> st -> Prop) s : safe m Q s -> ubres (m s) = None.
Proof. unfold safe, ubres. destruct (m s); auto. contradiction. Qed.

(** Decoding of an operand. *)
Section Parse.
Context (a : arch) (p : pfx) (off g n : Z) (l : bool) (t : list Z) (rg : Z) (o : operand) (rest : list Z) (wide : bool).
Context (F : flat E base a) (W : wf_regs a) (Hp : pfx_ok p) (C : code_from a off t) (Hr : real_rm p a t = Some (rg, o, rest)) (Hg : good wide o).
Let S := mkSt a (dec_of p off) g n l.
Let S2 := mkSt a (dec_of p (off + (blen t - blen rest))) g n l.

Lemma decode_any : exists mm q S1, get_modrm E S = Ok mm S1 /\ m_rrr mm = rg /\ 0 <= rg < 8 /\ okptr q /\
  (if wide then decode_modmx E else decode_modm E) mm S1 = Ok q S2 /\
  (forall w d' g' n' l', width w -> (wide = true <-> w <> 8) -> load w q (mkSt a d' g' n' l') = Ok (value w o a) (mkSt a d' g' n' l')).
Proof.
  destruct t as [|b u]; [discriminate|]. pose proof (code_byte_range E base a off b u F W C) as Hb. cbn [real_rm] in Hr.
  destruct (Z.eqb_spec (b / 64) 3) as [H3|H3].
  - injection Hr as <- <- <-. exists (modrm_of b), (if wide then regW (b mod 8) else regB (b mod 8)), (mkSt a (dec_of p (off + 1)) g n l).
    split; [eapply get_modrm_code; eauto|]. split; [reflexivity|]. split; [lia|]. split; [destruct wide; exact I|]. split.
    + destruct wide; unfold decode_modmx, decode_modm; replace (m_mod (modrm_of b)) with (b / 64) by reflexivity; rewrite H3; cbn [Z.eqb Pos.eqb]; unfold ret, S2; rewrite blen_cons; do 3 f_equal; lia.
    + intros w d' g' n' l' Hw Hww. cbn [value].
      assert (Hmm : 0 <= b mod 8 < 8) by lia.
      rewrite <- (load_r base w (b mod 8) a d' g' n' l' Hw Hmm). f_equal. destruct wide, Hw as [->|[->| ->]]; try reflexivity; exfalso; lia.
  - assert (Hra : real_address p a (b :: u) = match o with InMem x => Some (rg, x, rest) | _ => None end /\ exists x, o = InMem x).
    { destruct (real_address p a (b :: u)) as [[[rg' x] r']|]; [|discriminate]. injection Hr as <- <- <-. eauto. }
    destruct Hra as [Hra [x ->]]. cbn [good] in Hg. destruct Hg as [G1 G2].
    destruct (real_parts E base a p off g n l (b :: u) rg x rest F W Hp C Hra) as (b' & u' & sg & of & Eb & Hb' & H3' & Hrg & Hx & K1 & K2).
    assert (x < map_size) by lia. assert (0 <= x) by (subst x; unfold low; change (2 ^ 32) with 4294967296; lia).
    exists (modrm_of b'), (PMem (base + x)), (mkSt a (dec_of p (off + 1)) g n l).
    split; [exact K1|]. split; [exact (eq_sym Hrg)|]. split; [lia|]. split; [exists x; auto|]. split.
    + destruct wide; unfold decode_modmx, decode_modm; replace (m_mod (modrm_of b')) with (b' / 64) by reflexivity; replace (b' / 64 =? 3) with false by lia;
        unfold bind at 1; rewrite K2; cbn [fst snd].
      * replace (wrap 32 (sg * 16 + of)) with x by (rewrite Hx; unfold wrap, low; f_equal; lia). replace (x mod 4096 =? 4095) with false by (specialize (G2 eq_refl); lia).
        unfold bind. rewrite (getptr_x E base _ _ _ _ _ _ _ x F Hx) by lia. reflexivity.
      * unfold bind. rewrite (getptr_x E base _ _ _ _ _ _ _ x F Hx) by lia. reflexivity.
    + intros w d' g' n' l' Hw _. cbn [value]. apply load_x with (E := E); auto. destruct Hw as [->|[->| ->]]; cbn; lia.
Qed.
Lemma parse_any : exists q, okptr q /\ 0 <= rg < 8 /\
  (forall Y (f : ptr * ptr -> M Y), bind (if wide then parse_modrmx E else parse_modrm E) f S = f ((if wide then regW rg else regB rg), q) S2) /\
  (forall w d' g' n' l', width w -> (wide = true <-> w <> 8) -> load w q (mkSt a d' g' n' l') = Ok (value w o a) (mkSt a d' g' n' l')).
Proof.
  destruct decode_any as (mm & q & S1 & K1 & K2 & K3 & K4 & K5 & K6). exists q. split; [exact K4|]. split; [exact K3|]. split; [|exact K6].
  intros Y f. destruct wide.
  - unfold parse_modrmx. unfold bind at 1. unfold bind at 1. rewrite K1. unfold bind at 1. rewrite K5. unfold ret. rewrite K2. reflexivity.
  - unfold parse_modrm. unfold bind at 1. unfold bind at 1. rewrite K1. unfold bind at 1. rewrite K5. unfold ret. rewrite K2. reflexivity.
Qed.
Lemma rest_code : code_from a (off + (blen t - blen rest)) rest.
Proof.
  destruct (real_rm_split _ _ _ _ _ _ Hr) as (u & Hu & _). rewrite Hu in C |- *. rewrite blen_app. replace (blen u + blen rest - blen rest) with (blen u) by lia. apply code_from_app, C.
Qed.
End Parse.

(** Bodies. *)
Ltac swd := solve [assumption | auto with width].
Ltac okp := solve [assumption | exact I].
Ltac sf1 := lazymatch goal with
  | |- safe (bind _ _) _ _ => apply safe_bind
  | |- safe (if _ then _ else _) _ _ => apply safe_if
  | |- safe opw _ _ => apply safe_opw; intros
  | |- safe (ret _) _ _ => apply safe_ret
  | |- safe (err _) _ _ => exact I
  | |- safe (gets _) _ _ => apply safe_gets
  | |- safe (getA _) _ _ => apply safe_gets
  | |- safe (getD _) _ _ => apply safe_gets
  | |- safe (get_gpr _ _) _ _ => apply safe_get_gpr; intros
  | |- safe (set_gpr _ _ _) _ _ => eapply safe_set_gpr; [eassumption|intros]
  | |- safe (set_flags _) _ _ => eapply safe_set_flags; [eassumption|intros]
  | |- safe (set_ip _) _ _ => eapply safe_set_ip; [eassumption|intros]
  | |- safe (load _ _) _ _ => eapply safe_load; [swd|eassumption|okp|intros]
  | |- safe (store _ _ _) _ _ => eapply safe_store; [swd|eassumption|okp|intros]
  | |- safe (fetch _ _) _ _ => eapply safe_fetch; [swd|eassumption|intros]
  | |- True => exact I
  end.
Ltac sf := repeat (cbv beta zeta; sf1).

Lemma safe_alu_vals op w q d s0 S : width w -> J S -> okptr q -> safe (alu_vals op w q d s0) (fun _ _ => True) S.
Proof. intros Hw HJ Hq. unfold alu_vals, getflags. apply safe_bind. apply safe_gets. destruct (alu op w d s0 _) as [v f]. sf. Qed.
Lemma safe_alu1 h w q S : width w -> J S -> okptr q -> safe (alu1 h w q) (fun _ _ => True) S.
Proof. intros Hw HJ Hq. unfold alu1, getflags. apply safe_bind. eapply safe_load; eauto. intros v. apply safe_bind. apply safe_gets. destruct (h w v _) as [v' f]. sf. Qed.
Lemma safe_alu2 op w q1 q2 S : width w -> J S -> okptr q1 -> okptr q2 -> safe (alu2 op w q1 q2) (fun _ _ => True) S.
Proof. intros. unfold alu2. sf. apply safe_alu_vals; auto. Qed.
Lemma safe_alu2i op w q i S : width w -> J S -> okptr q -> safe (alu2i op w q i) (fun _ _ => True) S.
Proof. intros. unfold alu2i. sf. apply safe_alu_vals; auto. Qed.
Lemma safe_copy w q1 q2 S : width w -> J S -> okptr q1 -> okptr q2 -> safe (copy w q1 q2) (fun _ _ => True) S.
Proof. intros. unfold copy. sf. Qed.
Lemma safe_xchg w q1 q2 S : width w -> J S -> okptr q1 -> okptr q2 -> safe (xchg w q1 q2) (fun _ _ => True) S.
Proof. intros. unfold xchg. sf. Qed.
Lemma safe_upd_flags h S (Q : unit -> st -> Prop) : J S -> (forall s', J s' -> dc s' = dc S -> Q tt s') -> safe (upd_flags h) Q S.
Proof. intros HJ HQ. apply HQ; [apply (J_flags E base S), HJ|reflexivity]. Qed.

Lemma shift_ub op w q c S : 0 <= op < 8 -> width w -> J S -> okptr q -> 
  ubres (do_shift op w q c S) = if ((op =? 4) || (op =? 6)) && (c mod 32 =? w) then Some UbShift else None.
Proof.
  intros Hop Hw HJ Hq. unfold do_shift. cbv zeta.
  assert (Hok : forall amt, safe (d <- load w q ;; f <- getflags ;; match sh_apply op w d amt f with Some (v, f') => set_flags f' ;;; store w q v | None => ret tt end) (fun _ _ => True) S).
  { intros amt. apply safe_bind. eapply safe_load; eauto. intros d. apply safe_bind. apply safe_gets. destruct (sh_apply op w d amt _) as [[v f]|]; sf. }
  assert (Hw2 : 8 <= w <= 32) by (destruct Hw as [->|[->| ->]]; lia).
  destruct (((op =? 4) || (op =? 6)) && (c mod 32 =? w)) eqn:Hc.
  - assert (K : (op = 4 \/ op = 6) /\ c mod 32 = w) by lia. destruct K as [K Hcw].
    assert (Ha : sh_amount op w c = w) by (destruct K as [-> | ->]; exact Hcw). rewrite Ha. replace (w =? 0) with false by lia.
    unfold bind at 1. pose proof (safe_load E base w q (fun _ s' => s' = S) S Hw HJ Hq (fun _ => eq_refl)) as L. unfold safe in L.
    destruct S as [a d g n l]. destruct (load w q _) as [v S1|? ?| |] eqn:HL.
    + subst S1. unfold getflags, getA, gets, bind. assert (Hs : forall f, sh_apply op w v w f = None).
      { intros f. destruct K as [-> | ->]; cbn [sh_apply]; unfold sh_shl; replace (w <? w) with false by lia; replace (w - w - 1 <? 0) with true by lia; reflexivity. }
      rewrite Hs. reflexivity.
    + exfalso. revert HL. destruct q as [pos|h]; [discriminate|]. destruct Hq as (x & -> & H0 & H1). cbn [load]. rewrite hload_flat with (E := E); [discriminate|apply HJ|auto|auto|unfold map_size in H1; destruct Hw as [->|[->| ->]]; cbn; lia].
    + contradiction.
    + exfalso. revert HL. destruct q as [pos|h]; [discriminate|]. destruct Hq as (x & -> & H0 & H1). cbn [load]. rewrite hload_flat with (E := E); [discriminate|apply HJ|auto|auto|unfold map_size in H1; destruct Hw as [->|[->| ->]]; cbn; lia].
  - destruct (sh_amount op w c =? 0) eqn:H0; [reflexivity|]. pose proof (Hok (sh_amount op w c)) as H. apply ubres_safe in H. rewrite <- H. clear H.
    unfold bind. destruct (load w q S) as [d S1|? ?| |]; try reflexivity. unfold getflags, getA, gets. f_equal.
    assert (Hs : forall f, sh_apply op w d (sh_amount op w c) f <> None).
    { intros f. assert (op = 0 \/ op = 1 \/ op = 2 \/ op = 3 \/ op = 4 \/ op = 5 \/ op = 6 \/ op = 7) as K by lia.
      assert (SHL : c mod 32 <> w -> sh_shl w d (c mod 32) f <> None).
      { intros Hn. unfold sh_shl. destruct (Z.ltb_spec w (c mod 32)); [discriminate|]. destruct (Z.ltb_spec (w - c mod 32 - 1) 0); [lia|]. discriminate. }
      repeat destruct K as [->|K]; try subst op; cbn [sh_apply sh_amount]; try discriminate.
      all: try (unfold sh_rol, sh_ror, sh_shr, sh_sar; repeat match goal with |- context [let '(_, _) := ?x in _] => destruct x end; discriminate).
      all: try (apply SHL; cbn [Z.eqb Pos.eqb orb andb] in Hc; lia).
      all: unfold sh_rcl, sh_rcr; try destruct (rcl_loop _ _ _ _); try destruct (rcr_loop _ _ _ _); discriminate. }
    destruct (sh_apply op w d (sh_amount op w c) _) as [[v f]|] eqn:Hq2; [reflexivity|exfalso; exact (Hs _ Hq2)].
Qed.
Lemma dbl_ub left w q1 q2 c S : w = 16 \/ w = 32 -> J S -> okptr q1 -> okptr q2 -> 0 <= c ->
  ubres (do_dbl left w q1 q2 c S) = if (w <? c) || (32 <=? c) then Some UbShift else None.
Proof.
  intros Hw HJ H1 H2 Hc. assert (Hw' : width w) by (destruct Hw as [-> | ->]; auto with width). unfold do_dbl. destruct (Z.eqb_spec c 0) as [->|N].
  - destruct Hw as [-> | ->]; reflexivity.
  - unfold sh_dbl_bad. destruct ((w <? c) || (32 <=? c)); [reflexivity|]. apply ubres_safe with (Q := fun _ _ => True). unfold getflags. sf.
Qed.
Lemma imul2_ub q x y S : J S -> okptr q -> ubres (imul2 q x y S) = if 2 ^ 31 <=? x * y then Some UbMulOverflow else None.
Proof.
  intros HJ Hq. unfold imul2. cbv zeta. destruct (2 ^ 31 <=? x * y); [reflexivity|]. apply ubres_safe with (Q := fun _ _ => True). unfold getflags. sf.
Qed.
End WithEnv.
