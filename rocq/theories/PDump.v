(** Register dumps. *)
From Coq Require Import String Ascii.
From Verif Require Import Base Cpu Spec Dump SpecDump PBase.
Local Open Scope Z_scope.

Lemma length_app s t : String.length (s ++ t) = (String.length s + String.length t)%nat.
Proof. induction s as [|c s IH]; [reflexivity|]. cbn [append String.length Nat.add]. rewrite IH. reflexivity. Qed.
Lemma app_inj s1 : forall s2 t1 t2, String.length s1 = String.length s2 -> (s1 ++ t1)%string = (s2 ++ t2)%string -> s1 = s2 /\ t1 = t2.
Proof.
  induction s1 as [|c s1 IH]; intros [|d s2] t1 t2 L H; try discriminate; [auto|]. cbn [append] in H. cbn [String.length] in L. injection H as -> H. destruct (IH s2 t1 t2 ltac:(lia) H) as [-> ->]. auto.
Qed.
Lemma app_assoc_s a b c : ((a ++ b) ++ c)%string = (a ++ b ++ c)%string.
Proof. induction a as [|x a IH]; [reflexivity|]. cbn [append]. rewrite IH. reflexivity. Qed.
Lemma xdigit_value d : 0 <= d < 16 -> digit_value (xdigit d) = Some d.
Proof.
  intros H. unfold digit_value, xdigit. destruct (Z.ltb_spec d 10); rewrite nat_ascii_embedding by lia; rewrite Z2Nat.id by lia.
  - replace ((48 <=? 48 + d) && (48 + d <=? 57)) with true by lia. f_equal. lia.
  - replace ((48 <=? 87 + d) && (87 + d <=? 57)) with false by lia. replace ((97 <=? 87 + d) && (87 + d <=? 102)) with true by lia. f_equal. lia.
Qed.
Lemma hex_number_app t : forall acc r, hex_number acc (t ++ r) = match hex_number acc t with Some v => hex_number v r | None => None end.
Proof. induction t as [|c t IH]; intros acc r; [reflexivity|]. cbn [append hex_number]. destruct (digit_value c); [apply IH|reflexivity]. Qed.
(** The digits of v before acc. *)
Lemma xdigits_spec n : forall v acc, 0 <= v < 16 ^ (Z.of_nat n + 1) -> exists t, xdigits n v acc = (t ++ acc)%string /\ hex_number 0 t = Some v /\
  (1 <= String.length t <= S n)%nat /\ (forall w, 1 <= w -> v < 16 ^ w -> Z.of_nat (String.length t) <= w).
Proof.
  induction n as [|n IH]; intros v acc Hv.
  - change (16 ^ (Z.of_nat 0 + 1)) with 16 in Hv. cbn [xdigits]. exists (String (xdigit (v mod 16)) EmptyString). split; [reflexivity|]. split; [|cbn [String.length]; split; [lia|]; intros; lia].
    cbn [hex_number]. rewrite xdigit_value by lia. f_equal. lia.
  - cbn [xdigits]. destruct (Z.eqb_spec (v / 16) 0) as [E|E].
    + exists (String (xdigit (v mod 16)) EmptyString). split; [reflexivity|]. split; [|cbn [String.length]; split; [lia|]; intros; lia]. cbn [hex_number]. rewrite xdigit_value by lia. f_equal. lia.
    + rewrite Nat2Z.inj_succ in Hv. replace (Z.succ (Z.of_nat n) + 1) with (Z.succ (Z.of_nat n + 1)) in Hv by lia. rewrite Z.pow_succ_r in Hv by lia.
      destruct (IH (v / 16) (String (xdigit (v mod 16)) acc) ltac:(lia)) as (t & Et & Ht & L & W). exists (t ++ String (xdigit (v mod 16)) EmptyString)%string.
      split; [rewrite Et, app_assoc_s; reflexivity|]. split; [rewrite hex_number_app, Ht; cbn [hex_number]; rewrite xdigit_value by lia; f_equal; lia|]. rewrite length_app. cbn [String.length]. split; [lia|].
      intros w Hw Hlt. destruct (Z.eq_dec w 1) as [->|]; [change (16 ^ 1) with 16 in Hlt; lia|]. assert (v / 16 < 16 ^ (w - 1)). { replace w with (Z.succ (w - 1)) in Hlt by lia. rewrite Z.pow_succ_r in Hlt by lia. lia. }
      specialize (W (w - 1) ltac:(lia) H). lia.
Qed.
Lemma zeros_value n : hex_number 0 (zeros_text n) = Some 0. Proof. induction n as [|n IH]; [reflexivity|exact IH]. Qed.
Lemma zeros_length n : String.length (zeros_text n) = n. Proof. induction n as [|n IH]; [reflexivity|]. cbn [zeros_text String.length]. rewrite IH. reflexivity. Qed.
Lemma app_empty s : (s ++ "")%string = s. Proof. induction s as [|c s IH]; [reflexivity|]. cbn [append]. rewrite IH. reflexivity. Qed.
Lemma fmt_x_ok w v : (1 <= w <= 16)%nat -> 0 <= v < 16 ^ Z.of_nat w -> hex_text w v (fmt_x w v).
Proof.
  intros Hw Hv. assert (H16 : 0 <= v < 16 ^ (Z.of_nat 15 + 1)) by (split; [lia|]; eapply Z.lt_le_trans; [apply Hv|]; apply Z.pow_le_mono_r; lia).
  destruct (xdigits_spec 15 v EmptyString H16) as (t & Et & Ht & L & W). specialize (W (Z.of_nat w) ltac:(lia) ltac:(lia)). unfold fmt_x. rewrite Et, app_empty. split.
  - rewrite length_app, zeros_length. lia.
  - rewrite hex_number_app, zeros_value. exact Ht.
Qed.
Lemma hex_text_fun w v v' t : hex_text w v t -> hex_text w v' t -> v = v'.
Proof. intros [_ H] [_ H']. congruence. Qed.
(** A number has one text of each width. *)
Lemma digit_inj c d x : digit_value c = Some x -> digit_value d = Some x -> c = d.
Proof.
  intros H1 H2. unfold digit_value in *. pose proof (ascii_nat_embedding c) as Ec. pose proof (ascii_nat_embedding d) as Ed.
  assert (N : nat_of_ascii c = nat_of_ascii d); [|rewrite <- Ec, <- Ed, N; reflexivity].
  repeat match goal with H : context [if ?b then _ else _] |- _ => destruct b eqn:? end; try discriminate; injection H1; injection H2; intros; lia.
Qed.
Lemma digit_range c x : digit_value c = Some x -> 0 <= x < 16.
Proof. unfold digit_value. repeat match goal with |- context [if ?b then _ else _] => destruct b eqn:? end; intros [= <-]; lia. Qed.
Lemma hex_number_bound t : forall acc v, hex_number acc t = Some v -> acc * 16 ^ Z.of_nat (String.length t) <= v < (acc + 1) * 16 ^ Z.of_nat (String.length t).
Proof.
  induction t as [|c t IH]; intros acc v H.
  - injection H as <-. cbn [String.length Z.of_nat]. lia.
  - cbn [hex_number] in H. destruct (digit_value c) as [d|] eqn:E; [|discriminate]. pose proof (digit_range _ _ E). specialize (IH _ _ H). cbn [String.length]. rewrite Nat2Z.inj_succ, Z.pow_succ_r by lia. nia.
Qed.
Lemma hex_number_inj t : forall u acc acc' v, String.length t = String.length u -> hex_number acc t = Some v -> hex_number acc' u = Some v -> acc = acc' /\ t = u.
Proof.
  induction t as [|c t IH]; intros [|d u] acc acc' v L H1 H2; try discriminate.
  - cbn in *. split; [congruence|reflexivity].
  - cbn [hex_number] in *. destruct (digit_value c) as [x|] eqn:E1; [|discriminate]. destruct (digit_value d) as [y|] eqn:E2; [|discriminate].
    cbn [String.length] in L. destruct (IH u _ _ v ltac:(lia) H1 H2) as [Ea ->]. pose proof (digit_range _ _ E1). pose proof (digit_range _ _ E2). assert (x = y /\ acc = acc') as [-> ->] by lia. rewrite (digit_inj _ _ _ E1 E2). auto.
Qed.
Lemma hex_text_unique w v t u : hex_text w v t -> hex_text w v u -> t = u.
Proof. intros [L1 H1] [L2 H2]. apply (hex_number_inj t u 0 0 v); [congruence|exact H1|exact H2]. Qed.
(** Flags. *)
Lemma land_bit f k : 0 <= k -> (Z.land f (2 ^ k) =? 0) = negb (Z.testbit f k).
Proof.
  intros Hk. destruct (Z.testbit f k) eqn:E; cbn [negb].
  - apply Z.eqb_neq. intros H. assert (K : Z.testbit (Z.land f (2 ^ k)) k = true) by (rewrite Z.land_spec, E, Z.pow2_bits_true by lia; reflexivity). rewrite H, Z.bits_0 in K. discriminate.
  - apply Z.eqb_eq. apply Z.bits_inj'. intros n Hn. rewrite Z.land_spec, Z.bits_0. destruct (Z.eq_dec n k) as [->|N]; [rewrite E; reflexivity|]. rewrite Z.pow2_bits_false by lia. apply andb_false_r.
Qed.
Lemma flag_word_eq k n a : 0 <= k -> flag_word k n a = if Z.testbit (r_flags a) k then (" " ++ n)%string else EmptyString.
Proof. intros H. unfold flag_word. rewrite land_bit by exact H. destruct (Z.testbit _ _); reflexivity. Qed.
Lemma flags_text a r : (flag_word 11 "OF" a ++ flag_word 10 "DF" a ++ flag_word 9 "IF" a ++ flag_word 8 "TF" a ++ flag_word 7 "SF" a ++ flag_word 6 "ZF" a ++ flag_word 4 "AF" a ++ flag_word 2 "PF" a ++ flag_word 0 "CF" a ++ r)%string =
  (flag_names (r_flags a) ++ r)%string.
Proof. unfold flag_names. cbn [map joined fst snd]. rewrite !flag_word_eq by lia. rewrite !app_assoc_s. cbn [append]. reflexivity. Qed.
