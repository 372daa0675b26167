(** Arithmetic and bit-field lemmas; monad equations. *)
From Verif Require Import Base Cpu Alu Ops Machine Spec.
From Coq Require Export ZifyBool.
Ltac Zify.zify_post_hook ::= Z.div_mod_to_equations.

Lemma pow2_pos w : 0 <= w -> 0 < 2 ^ w.
Proof. intros; apply Z.pow_pos_nonneg; lia. Qed.

Lemma wrap_small w x : inrange w x -> wrap w x = x.
Proof. unfold inrange, wrap; intros; apply Z.mod_small; lia. Qed.

Lemma wrap_range w x : 0 <= w -> inrange w (wrap w x).
Proof. unfold inrange, wrap; intros; apply Z.mod_pos_bound, pow2_pos; lia. Qed.

Lemma wrap_wrap w x : 0 <= w -> wrap w (wrap w x) = wrap w x.
Proof. intros; apply wrap_small, wrap_range; lia. Qed.

Lemma wrap_mod_le v w x : 0 <= v <= w -> wrap v (wrap w x) = wrap v x.
Proof.
  unfold wrap; intros H.
  replace (2 ^ w) with (2 ^ v * 2 ^ (w - v)) by (rewrite <- Z.pow_add_r by lia; f_equal; lia).
  pose proof (pow2_pos v) as Hv. pose proof (pow2_pos (w - v)) as Hw.
  rewrite Z.rem_mul_r by lia.
  rewrite (Z.mul_comm (2 ^ v)), Z.mod_add by lia.
  apply Z.mod_mod; lia.
Qed.

Lemma getf_range pos w g : 0 <= w -> inrange w (getf pos w g).
Proof. unfold inrange, getf; intros; apply Z.mod_pos_bound, pow2_pos; lia. Qed.

Lemma getf_testbit pos w g i : 0 <= pos -> 0 <= w -> 0 <= i ->
  Z.testbit (getf pos w g) i = (i <? w) && Z.testbit g (i + pos).
Proof.
  intros Hp Hw Hi. unfold getf. rewrite Z.testbit_mod_pow2 by lia.
  rewrite Z.div_pow2_bits by lia. reflexivity.
Qed.

(** The characteristic equation of setf: the field is replaced, other bits are kept. *)
Lemma setf_decomp pos w v g : 0 <= pos -> 0 <= w ->
  setf pos w v g = g mod 2 ^ pos + 2 ^ pos * (wrap w v + 2 ^ w * (g / 2 ^ (pos + w))).
Proof.
  intros Hp Hw. unfold setf, getf, wrap.
  pose proof (pow2_pos pos Hp) as H1. pose proof (pow2_pos w Hw) as H2.
  rewrite Z.pow_add_r by lia. rewrite <- Z.div_div by lia.
  set (P := 2 ^ pos) in *. set (W := 2 ^ w) in *.
  pose proof (Z.div_mod g P ltac:(lia)) as E1.
  pose proof (Z.div_mod (g / P) W ltac:(lia)) as E2.
  nia.
Qed.

Lemma getf_setf_same pos w v g : 0 <= pos -> 0 <= w ->
  getf pos w (setf pos w v g) = wrap w v.
Proof.
  intros Hp Hw. rewrite setf_decomp by lia. unfold getf.
  pose proof (pow2_pos pos Hp) as H1. pose proof (pow2_pos w Hw) as H2.
  rewrite (Z.mul_comm (2 ^ pos)), Z.div_add, Z.div_small, Z.add_0_l
    by (try apply Z.mod_pos_bound; lia).
  rewrite (Z.mul_comm (2 ^ w)), Z.mod_add by lia.
  apply (wrap_wrap w v Hw).
Qed.

Lemma setf_testbit pos w v g i : 0 <= pos -> 0 <= w -> 0 <= i ->
  Z.testbit (setf pos w v g) i =
  if (pos <=? i) && (i <? pos + w) then Z.testbit v (i - pos) else Z.testbit g i.
Proof.
  intros Hp Hw Hi. rewrite setf_decomp by lia.
  pose proof (pow2_pos pos Hp) as H1. pose proof (pow2_pos w Hw) as H2.
  destruct (Z.leb_spec pos i) as [Hle|Hlt]; cbn [andb].
  - replace i with ((i - pos) + pos) at 1 by lia.
    rewrite <- Z.div_pow2_bits by lia.
    rewrite (Z.mul_comm (2 ^ pos)), Z.div_add, Z.div_small, Z.add_0_l
      by (try apply Z.mod_pos_bound; lia).
    destruct (Z.ltb_spec i (pos + w)) as [Hlt|Hge].
    + rewrite <- (Z.mod_pow2_bits_low _ w) by lia.
      rewrite (Z.mul_comm (2 ^ w)), Z.mod_add by lia.
      unfold wrap. rewrite Z.mod_mod by lia.
      apply Z.mod_pow2_bits_low; lia.
    + replace (i - pos) with ((i - pos - w) + w) by lia.
      rewrite <- Z.div_pow2_bits by lia.
      rewrite (Z.mul_comm (2 ^ w)), Z.div_add, Z.div_small, Z.add_0_l by (try apply wrap_range; lia).
      rewrite Z.div_pow2_bits by lia. f_equal; lia.
  - rewrite <- (Z.mod_pow2_bits_low _ pos) by lia.
    rewrite (Z.mul_comm (2 ^ pos)), Z.mod_add, Z.mod_mod by lia.
    apply Z.mod_pow2_bits_low; lia.
Qed.

Lemma getf_setf_disjoint pos w pos' w' v g :
  0 <= pos -> 0 <= w -> 0 <= pos' -> 0 <= w' ->
  pos + w <= pos' \/ pos' + w' <= pos ->
  getf pos w (setf pos' w' v g) = getf pos w g.
Proof.
  intros. apply Z.bits_inj'; intros i Hi.
  rewrite !getf_testbit by lia.
  destruct (Z.ltb_spec i w); cbn [andb]; [|reflexivity].
  rewrite setf_testbit by lia.
  replace ((pos' <=? i + pos) && (i + pos <? pos' + w')) with false by lia.
  reflexivity.
Qed.

Lemma getf_sub p q w g v : 0 <= p -> 0 <= q -> 0 <= v -> q + v <= w ->
  getf q v (getf p w g) = getf (p + q) v g.
Proof.
  intros. apply Z.bits_inj'; intros i Hi.
  rewrite !getf_testbit by lia.
  destruct (Z.ltb_spec i v); cbn [andb]; [|reflexivity].
  replace (i + q <? w) with true by lia. cbn. f_equal; lia.
Qed.

Lemma setf_range pos w v g n : 0 <= pos -> 0 <= w -> pos + w <= n ->
  0 <= g < 2 ^ n -> 0 <= setf pos w v g < 2 ^ n.
Proof.
  intros Hp Hw Hn Hg. rewrite setf_decomp by lia.
  pose proof (pow2_pos pos Hp) as H1. pose proof (pow2_pos w Hw) as H2.
  pose proof (wrap_range w v Hw) as [Hv1 Hv2].
  pose proof (Z.mod_pos_bound g (2 ^ pos) H1) as Hm.
  pose proof (pow2_pos (n - (pos + w)) ltac:(lia)) as H3.
  assert (Hq : 0 <= g / 2 ^ (pos + w) < 2 ^ (n - (pos + w))).
  { split; [apply Z.div_pos; [lia|apply pow2_pos; lia]|].
    apply Z.div_lt_upper_bound; [apply pow2_pos; lia|].
    rewrite <- Z.pow_add_r by lia. replace (pos + w + (n - (pos + w))) with n by lia. lia. }
  replace (2 ^ n) with (2 ^ pos * (2 ^ w * 2 ^ (n - (pos + w))))
    by (rewrite <- !Z.pow_add_r by lia; f_equal; lia).
  set (P := 2 ^ pos) in *. set (W := 2 ^ w) in *. set (R := 2 ^ (n - (pos + w))) in *.
  set (q := g / 2 ^ (pos + w)) in *.
  assert (0 <= wrap w v + W * q < W * R) by nia.
  nia.
Qed.

Lemma setf_wrap pos w v g : 0 <= w -> setf pos w (wrap w v) g = setf pos w v g.
Proof. intros; unfold setf; rewrite wrap_wrap by lia; reflexivity. Qed.

Lemma setf_getf_id pos w g : 0 <= w -> setf pos w (getf pos w g) g = g.
Proof.
  intros. unfold setf. rewrite wrap_small by (apply getf_range; lia). lia.
Qed.

Lemma setf_setf_same pos w v u g : 0 <= pos -> 0 <= w ->
  setf pos w v (setf pos w u g) = setf pos w v g.
Proof.
  intros. apply Z.bits_inj'; intros i Hi. rewrite !setf_testbit by lia.
  destruct ((pos <=? i) && (i <? pos + w)); reflexivity.
Qed.

Lemma setf_comm pos w v pos' w' v' g :
  0 <= pos -> 0 <= w -> 0 <= pos' -> 0 <= w' ->
  pos + w <= pos' \/ pos' + w' <= pos ->
  setf pos w v (setf pos' w' v' g) = setf pos' w' v' (setf pos w v g).
Proof.
  intros. apply Z.bits_inj'; intros i Hi. rewrite !setf_testbit by lia.
  destruct ((pos <=? i) && (i <? pos + w)) eqn:E1;
  destruct ((pos' <=? i) && (i <? pos' + w')) eqn:E2; auto; lia.
Qed.

(** ** Registers of the specification are the bit fields of the model *)
Definition rpos (w n : Z) : Z :=
  if w =? 8 then (if n <? 4 then 32 * n else 32 * (n - 4) + 8) else 32 * n.

Lemma gpr_getf n a : gpr n a = getf (32 * n) 32 (gprs a).
Proof. reflexivity. Qed.

Lemma width_cases w : width w -> w = 8 \/ w = 16 \/ w = 32.
Proof. exact (fun H => H). Qed.

Lemma getf_low p w v g : 0 <= p -> 0 <= v <= w -> getf p w g mod 2 ^ v = getf p v g.
Proof.
  intros. rewrite <- (Z.div_1_r (getf p w g)), <- (Z.pow_0_r 2).
  change ((getf p w g / 2 ^ 0) mod 2 ^ v) with (getf 0 v (getf p w g)).
  rewrite getf_sub by lia. f_equal; lia.
Qed.

Lemma reg_getf w n a : width w -> 0 <= n < 8 -> reg w n a = getf (rpos w n) w (gprs a).
Proof.
  intros [-> | [-> | ->]] Hn; unfold reg, rpos; cbn [Z.eqb Pos.eqb].
  - destruct (Z.ltb_spec n 4).
    + rewrite gpr_getf. change 256 with (2 ^ 8). apply getf_low; lia.
    + rewrite gpr_getf. change 256 with (2 ^ 8).
      change ((getf (32 * (n - 4)) 32 (gprs a) / 2 ^ 8) mod 2 ^ 8)
        with (getf 8 8 (getf (32 * (n - 4)) 32 (gprs a))).
      apply getf_sub; lia.
  - rewrite gpr_getf. apply getf_low; lia.
  - rewrite gpr_getf. apply getf_low; lia.
Qed.

Lemma with_reg_setf w n v a : width w -> 0 <= n < 8 -> inrange w v ->
  with_reg w n v a = a_gprs (setf (rpos w n) w v (gprs a)) a.
Proof.
  intros Hw Hn Hv. pose proof (reg_getf w n a Hw Hn) as Hr.
  unfold with_reg, with_gpr, setf. rewrite <- Hr. rewrite wrap_small by exact Hv.
  unfold reg, rpos in *.
  destruct Hw as [-> | [-> | ->]]; cbn [Z.eqb Pos.eqb] in *.
  - destruct (Z.ltb_spec n 4).
    + f_equal. f_equal. f_equal. lia.
    + f_equal. f_equal. rewrite Z.pow_add_r by lia. ring.
  - f_equal. f_equal. f_equal. lia.
  - f_equal. f_equal. f_equal. lia.
Qed.

(** ** Monad equations *)
Lemma bind_ok {X Y} (m : M X) (f : X -> M Y) s x s' :
  m s = Ok x s' -> bind m f s = f x s'.
Proof. unfold bind; intros ->; reflexivity. Qed.
Lemma bind_err {X Y} (m : M X) (f : X -> M Y) s c s' :
  m s = Err c s' -> bind m f s = Err c s'.
Proof. unfold bind; intros ->; reflexivity. Qed.

#[global] Arguments wrap : simpl never.
#[global] Arguments sgn : simpl never.
#[global] Arguments getf : simpl never.
#[global] Arguments setf : simpl never.
#[global] Arguments Z.mul : simpl never.
#[global] Arguments Z.add : simpl never.
#[global] Arguments Z.sub : simpl never.
#[global] Arguments Z.pow : simpl never.
#[global] Arguments Z.div : simpl never.
#[global] Arguments Z.modulo : simpl never.
#[global] Arguments Z.testbit : simpl never.
#[global] Arguments Z.land : simpl never.
#[global] Arguments Z.lor : simpl never.
#[global] Arguments Z.lxor : simpl never.
#[global] Arguments Z.ldiff : simpl never.
#[global] Arguments Z.to_nat : simpl never.
#[global] Arguments Z.of_nat : simpl never.
#[global] Arguments mem : simpl never.
#[global] Arguments with_mem : simpl never.
#[global] Arguments reg : simpl never.
#[global] Arguments with_reg : simpl never.
#[global] Arguments lin : simpl never.
#[global] Arguments low : simpl never.
#[global] Arguments fclear : simpl never.
#[global] Arguments fset : simpl never.
#[global] Arguments ftest : simpl never.

(** Symbolic execution: one rewrite rule per primitive, states written [mkSt a d g n l]. *)
Section Steps.
Context {Y : Type}.
Lemma st_bind {X W} (m : M X) (f : X -> M W) (k : W -> M Y) s :
  bind (bind m f) k s = bind m (fun x => bind (f x) k) s.
Proof. unfold bind. destruct (m s); reflexivity. Qed.
Lemma st_ret {X} (x : X) (k : X -> M Y) s : bind (ret x) k s = k x s.
Proof. reflexivity. Qed.
Lemma st_err {X} c (k : X -> M Y) s : bind (err c) k s = Err c s.
Proof. reflexivity. Qed.
Lemma st_undef {X} r (k : X -> M Y) s : bind (undef r) k s = UB r.
Proof. reflexivity. Qed.
Lemma st_getA {X} (f : arch -> X) (k : X -> M Y) a d g n l :
  bind (getA f) k (mkSt a d g n l) = k (f a) (mkSt a d g n l).
Proof. reflexivity. Qed.
Lemma st_getD {X} (f : dec -> X) (k : X -> M Y) a d g n l :
  bind (getD f) k (mkSt a d g n l) = k (f d) (mkSt a d g n l).
Proof. reflexivity. Qed.
Lemma st_getflags (k : Z -> M Y) a d g n l :
  bind getflags k (mkSt a d g n l) = k (r_flags a) (mkSt a d g n l).
Proof. reflexivity. Qed.
Lemma st_upd_ar f (k : unit -> M Y) a d g n l :
  bind (upd_ar f) k (mkSt a d g n l) = k tt (mkSt (f a) d g n l).
Proof. reflexivity. Qed.
Lemma st_upd_dc f (k : unit -> M Y) a d g n l :
  bind (upd_dc f) k (mkSt a d g n l) = k tt (mkSt a (f d) g n l).
Proof. reflexivity. Qed.
Lemma st_set_flags v (k : unit -> M Y) a d g n l :
  bind (set_flags v) k (mkSt a d g n l) = k tt (mkSt (a_flags v a) d g n l).
Proof. reflexivity. Qed.
Lemma st_set_ip v (k : unit -> M Y) a d g n l :
  bind (set_ip v) k (mkSt a d g n l) = k tt (mkSt (a_ip (wrap 16 v) a) d g n l).
Proof. reflexivity. Qed.
Lemma st_set_cs v (k : unit -> M Y) a d g n l :
  bind (set_cs v) k (mkSt a d g n l) = k tt (mkSt (a_cs (wrap 16 v) a) d g n l).
Proof. reflexivity. Qed.
Lemma st_opw (k : Z -> M Y) a d g n l :
  bind opw k (mkSt a d g n l) = k (if d_op d then 32 else 16) (mkSt a d g n l).
Proof. reflexivity. Qed.
Lemma st_get_gpr p w (k : Z -> M Y) a d g n l :
  bind (get_gpr p w) k (mkSt a d g n l) = k (getf p w (gprs a)) (mkSt a d g n l).
Proof. reflexivity. Qed.
Lemma st_set_gpr p w v (k : unit -> M Y) a d g n l :
  bind (set_gpr p w v) k (mkSt a d g n l) =
  k tt (mkSt (a_gprs (setf p w v (gprs a)) a) d g n l).
Proof. reflexivity. Qed.
Lemma st_dont (k : unit -> M Y) a d g n l :
  bind dont_change_ip k (mkSt a d g n l) = k tt (mkSt a (dd_noip true d) g n l).
Proof. reflexivity. Qed.
Lemma st_next_ip (k : Z -> M Y) a d g n l :
  bind next_ip k (mkSt a d g n l) = k (wrap 16 (r_ip a + d_ipoff d)) (mkSt a d g n l).
Proof. reflexivity. Qed.
End Steps.

(** The same for a primitive in tail position. *)
Lemma tl_ret {X} (m : M X) s : bind m ret s = m s.
Proof. unfold bind, ret. destruct (m s); reflexivity. Qed.
