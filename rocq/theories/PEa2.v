(** Proofs: instructions with an operand at its real address. *)
From Verif Require Import Base Cpu Alu Ops Machine Spec SpecOps SpecOps2 SpecSys SpecRun SpecStop SpecEa PBase PMem PRun PFrame PAlu PExec PIAlu PIAlu2 PShift PStep PIMov PStop PStop2 PEa.

Section WithEnv.
Context (E : env) (base : Z).

Lemma real_offset_range p md m a t o r : wf_regs a -> (forall b, In b t -> 0 <= b < 256) -> 0 <= m < 8 -> real_offset p md m a t = Some (o, r) -> 0 <= o < 4294967296.
Proof.
  intros W Hb Hm. assert (L : forall x, 0 <= low 32 x < 4294967296) by (intros x; unfold low; change (2 ^ 32) with 4294967296; lia).
  unfold real_offset. destruct (p_as p).
  - destruct (md =? 0).
    + destruct (m =? 4).
      * destruct t as [|sib u]; [discriminate|]. destruct (sib mod 8 =? 5).
        { destruct (dword u) as [[? ?]|]; [|discriminate]. intros [= <- _]. apply L. }
        { intros [= <- _]. apply L. }
      * destruct (m =? 5).
        { unfold dword. destruct t as [|b0 [|b1 [|b2 [|b3 u]]]]; try discriminate. intros [= <- _].
          pose proof (Hb b0 ltac:(cbn; auto)). pose proof (Hb b1 ltac:(cbn; auto)). pose proof (Hb b2 ltac:(cbn; auto 6)). pose proof (Hb b3 ltac:(cbn; auto 6)). lia. }
        intros [= <- _]. pose proof (reg_range 32 m a ltac:(auto with width) Hm) as R. unfold inrange in R. change (2 ^ 32) with 4294967296 in R. exact R.
    + destruct (disp32 md t) as [[d u]|]; [|discriminate]. destruct (m =? 4); [destruct u; [discriminate|]|]; intros [= <- _]; apply L.
  - destruct (disp md m t) as [[d u]|]; [|discriminate]. intros [= <- _]. apply L.
Qed.

Lemma getptr_x a d g n l sg o x : flat E base a -> x = low 32 (16 * sg + o) -> x < map_size ->
  getptr E sg o (mkSt a d g n l) = Ok (base + x) (mkSt a d g n l).
Proof.
  intros F Hx Hl. unfold map_size in Hl. assert (H0 : 0 <= x) by (subst x; unfold low; change (2 ^ 32) with 4294967296; lia).
  unfold getptr. cbn [ar]. replace (wrap 32 (sg * 16 + o)) with x by (subst x; unfold wrap, low; f_equal; lia).
  replace (x / 4096 <? 272) with true by lia. rewrite (fl_tab _ _ _ F) by lia.
  match goal with |- (if ?c then _ else _) = _ => replace c with false end.
  - f_equal. lia.
  - destruct (null_check E) eqn:En; cbn [andb]; [|reflexivity].
    pose proof (fl_base _ _ _ F). pose proof (fl_null _ _ _ F En) as Hz.
    destruct (Z.eqb_spec base 0) as [B|B]; [rewrite (Hz B); cbn [andb]; lia|]. destruct (zero_null_ok E); cbn [andb negb]; lia.
Qed.
Lemma getptr_ub sg o x s : x = low 32 (16 * sg + o) -> map_size <= x -> getptr E sg o s = UB UbMapIndex.
Proof.
  intros Hx Hl. unfold map_size in Hl. unfold getptr. replace (wrap 32 (sg * 16 + o)) with x by (subst x; unfold wrap, low; f_equal; lia).
  replace (x / 4096 <? 272) with false by lia. reflexivity.
Qed.

Section Parse.
Context (a : arch) (p : pfx) (off g n : Z) (l : bool) (t : list Z) (rg x : Z) (rest : list Z).
Context (F : flat E base a) (W : wf_regs a) (Hp : pfx_ok p) (C : code_from a off t) (Hr : real_address p a t = Some (rg, x, rest)).

Lemma real_parts : exists b u sg o, t = b :: u /\ 0 <= b < 256 /\ b / 64 <> 3 /\ rg = (b / 8) mod 8 /\ x = low 32 (16 * sg + o) /\
  get_modrm E (mkSt a (dec_of p off) g n l) = Ok (modrm_of b) (mkSt a (dec_of p (off + 1)) g n l) /\
  get_mmm E (modrm_of b) (mkSt a (dec_of p (off + 1)) g n l) = Ok (sg, o) (mkSt a (dec_of p (off + (blen t - blen rest))) g n l).
Proof.
  destruct t as [|b u]; [discriminate|]. pose proof (code_byte_range E base a off b u F W C) as Hb. cbn [real_address] in Hr.
  destruct (Z.eqb_spec (b / 64) 3) as [|H3]; [discriminate|].
  destruct (real_offset p (b / 64) (b mod 8) a u) as [[o r]|] eqn:Ho; [|discriminate]. injection Hr as <- <- <-.
  pose proof (get_mmm_real E base a p (off + 1) g n l b u o r F W Hp Hb H3 (proj2 (code_from_cons _ _ _ _ C)) Ho) as G.
  eexists b, u, _, o. split; [reflexivity|]. split; [exact Hb|]. split; [exact H3|]. split; [reflexivity|]. split; [reflexivity|].
  split; [eapply get_modrm_code; eauto|]. rewrite G, blen_cons. do 3 f_equal. lia.
Qed.
Lemma real_pos : 0 <= x < 4294967296 /\ 0 <= rg < 8.
Proof. destruct real_parts as (b & u & sg & o & _ & Hb & _ & -> & -> & _). unfold low. change (2 ^ 32) with 4294967296. lia. Qed.

Lemma parse8_real : x < map_size ->
  parse_modrm E (mkSt a (dec_of p off) g n l) = Ok (regB rg, PMem (base + x)) (mkSt a (dec_of p (off + (blen t - blen rest))) g n l).
Proof.
  destruct real_parts as (b & u & sg & o & _ & Hb & H3 & -> & Hx & G1 & G2). intros Hl.
  unfold parse_modrm. erewrite bind_ok by exact G1. unfold decode_modm. replace (m_mod (modrm_of b)) with (b / 64) by reflexivity.
  replace (b / 64 =? 3) with false by lia. unfold bind at 1. unfold bind at 1. rewrite G2. cbn [fst snd]. unfold bind at 1. rewrite (getptr_x _ _ _ _ _ _ _ _ F Hx Hl). reflexivity.
Qed.
Lemma parse8_far : map_size <= x -> parse_modrm E (mkSt a (dec_of p off) g n l) = UB UbMapIndex.
Proof.
  destruct real_parts as (b & u & sg & o & _ & Hb & H3 & -> & Hx & G1 & G2). intros Hl.
  unfold parse_modrm. erewrite bind_ok by exact G1. unfold decode_modm. replace (m_mod (modrm_of b)) with (b / 64) by reflexivity.
  replace (b / 64 =? 3) with false by lia. unfold bind at 1. unfold bind at 1. rewrite G2. cbn [fst snd]. unfold bind at 1. rewrite (getptr_ub _ _ _ _ Hx Hl). reflexivity.
Qed.
Lemma parsex_all : exists b, get_modrm E (mkSt a (dec_of p off) g n l) = Ok (modrm_of b) (mkSt a (dec_of p (off + 1)) g n l) /\ t = b :: tl t /\ rg = (b / 8) mod 8 /\
  let s2 := mkSt a (dec_of p (off + (blen t - blen rest))) g n l in
  let d := if x mod 4096 =? 4095 then Err E_BADMEM s2 else if x <? map_size then Ok (PMem (base + x)) s2 else UB UbMapIndex in
  decode_modmx E (modrm_of b) (mkSt a (dec_of p (off + 1)) g n l) = d.
Proof.
  destruct real_parts as (b & u & sg & o & -> & Hb & H3 & Hrg & Hx & G1 & G2). exists b. split; [exact G1|]. split; [reflexivity|]. split; [exact Hrg|].
  cbv zeta. unfold decode_modmx. replace (m_mod (modrm_of b)) with (b / 64) by reflexivity. replace (b / 64 =? 3) with false by lia.
  unfold bind at 1. rewrite G2. cbn [fst snd]. replace (wrap 32 (sg * 16 + o)) with x by (rewrite Hx; unfold wrap, low; f_equal; lia).
  destruct (x mod 4096 =? 4095); [reflexivity|]. destruct (Z.ltb_spec x map_size) as [Hl|Hl].
  - unfold bind. rewrite (getptr_x _ _ _ _ _ _ _ _ F Hx Hl). reflexivity.
  - unfold bind. rewrite (getptr_ub _ _ _ _ Hx Hl). reflexivity.
Qed.
Lemma parsex_real : x mod 4096 <> 4095 -> x < map_size ->
  parse_modrmx E (mkSt a (dec_of p off) g n l) = Ok (regW rg, PMem (base + x)) (mkSt a (dec_of p (off + (blen t - blen rest))) g n l).
Proof.
  intros H1 H2. destruct parsex_all as (b & G1 & _ & -> & G2). cbv zeta in G2. unfold parse_modrmx. erewrite bind_ok by exact G1. unfold bind at 1. rewrite G2.
  replace (x mod 4096 =? 4095) with false by lia. replace (x <? map_size) with true by lia. reflexivity.
Qed.
Lemma parsex_far : x mod 4096 <> 4095 -> map_size <= x -> parse_modrmx E (mkSt a (dec_of p off) g n l) = UB UbMapIndex.
Proof.
  intros H1 H2. destruct parsex_all as (b & G1 & _ & _ & G2). cbv zeta in G2. unfold parse_modrmx. erewrite bind_ok by exact G1. unfold bind at 1. rewrite G2.
  replace (x mod 4096 =? 4095) with false by lia. replace (x <? map_size) with false by lia. reflexivity.
Qed.
End Parse.

(** The pointer passed to the operations. *)
Lemma load_x w x a d g n l : flat E base a -> width w -> 0 <= x -> x + w / 8 <= map_size -> load w (PMem (base + x)) (mkSt a d g n l) = Ok (mem w a x) (mkSt a d g n l).
Proof. intros F Hw H0 H1. cbn [load]. apply hload_flat with (E := E); auto. Qed.
Lemma store_x w x v a d g n l : flat E base a -> width w -> 0 <= x -> x + w / 8 <= map_size -> store w (PMem (base + x)) v (mkSt a d g n l) = Ok tt (mkSt (smem base w x v a) d g n l).
Proof. intros F Hw H0 H1. cbn [store]. apply hstore_flat with (E := E); auto. Qed.
End WithEnv.
