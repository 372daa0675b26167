(** Proofs about the native tester. *)
From Verif Require Import Base Cpu Machine Spec SpecOps SpecSys Native SpecNative PBase PMem PRun PExec.

(** ** Bytes and globals *)
Lemma hput_at x v h y : hput x v h y = if y =? x then Some (wrap 8 v) else h y. Proof. reflexivity. Qed.
Lemma isbyte_wrap v : isbyte (Some (wrap 8 v)). Proof. eexists. split; [reflexivity|]. apply (wrap_range 8). lia. Qed.
Lemma store4_at p v h y : store_bytes 4 p v h y = if (p <=? y) && (y <? p + 4) then Some ((v / 2 ^ (8 * (y - p))) mod 256) else h y.
Proof. reflexivity. Qed.
Lemma load4 h p : load_bytes 4 h p = match h p, h (p + 1), h (p + 2), h (p + 3) with
  | Some b0, Some b1, Some b2, Some b3 => Some (b0 + 256 * (b1 + 256 * (b2 + 256 * b3))) | _, _, _, _ => None end.
Proof.
  cbn [load_bytes]. replace (p + 1 + 1) with (p + 2) by lia. replace (p + 2 + 1) with (p + 3) by lia.
  destruct (h p), (h (p + 1)), (h (p + 2)), (h (p + 3)); try reflexivity. do 4 f_equal. lia.
Qed.
Lemma load4_store4 p v h : load_bytes 4 (store_bytes 4 p v h) p = Some (v mod 2 ^ 32).
Proof.
  rewrite load4, !store4_at.
  replace ((p <=? p) && (p <? p + 4)) with true by lia. replace ((p <=? p + 1) && (p + 1 <? p + 4)) with true by lia.
  replace ((p <=? p + 2) && (p + 2 <? p + 4)) with true by lia. replace ((p <=? p + 3) && (p + 3 <? p + 4)) with true by lia.
  replace (8 * (p - p)) with 0 by lia. replace (8 * (p + 1 - p)) with 8 by lia. replace (8 * (p + 2 - p)) with 16 by lia. replace (8 * (p + 3 - p)) with 24 by lia.
  rewrite Z.pow_0_r, Z.div_1_r. f_equal. change (2 ^ 8) with 256. change (2 ^ 16) with 65536. change (2 ^ 24) with 16777216. change (2 ^ 32) with 4294967296. lia.
Qed.
Lemma load4_ext h h' p : (forall x, p <= x < p + 4 -> h' x = h x) -> load_bytes 4 h' p = load_bytes 4 h p.
Proof. intros H. rewrite !load4, !H by lia. reflexivity. Qed.
Lemma gint_set p v a : gint p (set_gint p v a) = sgn 32 v.
Proof.
  unfold gint, set_gint. cbn [a_hmem hmem]. rewrite load4_store4. unfold sgn, wrap. rewrite Z.mod_mod by lia. reflexivity.
Qed.
Lemma gint_small p v a : - 2 ^ 31 <= v < 2 ^ 31 -> gint p (set_gint p v a) = v.
Proof.
  intros H. rewrite gint_set. unfold sgn, wrap. change (2 ^ (32 - 1)) with (2 ^ 31). change (2 ^ 32) with 4294967296. change (2 ^ 31) with 2147483648 in *.
  destruct (Z.ltb_spec (v mod 4294967296) 2147483648); lia.
Qed.
Lemma gint_ext p a a' : (forall x, p <= x < p + 4 -> hmem a' x = hmem a x) -> gint p a' = gint p a.
Proof. intros H. unfold gint. rewrite (load4_ext (hmem a)) by exact H. reflexivity. Qed.
Lemma gint_bounds p a : - 2 ^ 31 <= gint p a < 2 ^ 31.
Proof.
  unfold gint. destruct (load_bytes 4 (hmem a) p) as [v|]; [|lia]. unfold sgn, wrap. change (2 ^ (32 - 1)) with (2 ^ 31).
  pose proof (Z.mod_pos_bound v (2 ^ 32) ltac:(lia)). destruct (Z.ltb_spec (v mod 2 ^ 32) (2 ^ 31)); lia.
Qed.
Lemma set_gint_hmem p v a y : hmem (set_gint p v a) y = if (p <=? y) && (y <? p + 4) then Some ((v / 2 ^ (8 * (y - p))) mod 256) else hmem a y.
Proof. reflexivity. Qed.

(** ** only_memory *)
Lemma om_refl P a : only_memory P a a. Proof. split; [destruct a; reflexivity|reflexivity]. Qed.
Lemma om_trans P a b c : only_memory P a b -> only_memory P b c -> only_memory P a c.
Proof. intros [A1 A2] [B1 B2]. split; [rewrite B1, A1; reflexivity|]. intros x Hx. rewrite B2, A2 by exact Hx. reflexivity. Qed.
Lemma om_weaken (P Q : Z -> Prop) a b : (forall x, P x -> Q x) -> only_memory P a b -> only_memory Q a b.
Proof. intros H [A1 A2]. split; [exact A1|]. intros x Hx. apply A2. intros K. apply Hx, H, K. Qed.
Lemma om_hmem (P : Z -> Prop) h a : (forall x, ~ P x -> h x = hmem a x) -> only_memory P a (a_hmem h a).
Proof. intros H. split; [reflexivity|]. exact H. Qed.
Lemma om_fields P a b : only_memory P a b -> gprs b = gprs a /\ r_flags b = r_flags a /\ mtab b = mtab a /\ hle b = hle a /\ r_es b = r_es a.
Proof. intros [-> _]. auto. Qed.

Section Native.
Context (GM : Z).
(** Guest memory through the flat map. *)
Lemma byte_flat E a x : flat E GM a -> 0 <= x < 1114112 -> hmem a (GM + x) = Some (byte a x) /\ 0 <= byte a x < 256.
Proof.
  intros F Hx. destruct (fl_mem E GM a F x Hx) as (b & Hb & Hr). unfold byte, host. rewrite (fl_tab E GM a F) by lia.
  replace (GM + 4096 * (x / 4096) + x mod 4096) with (GM + x) by lia. rewrite Hb. auto.
Qed.
Lemma flat_hmem E a h : flat E GM a -> (forall x, 0 <= x < 1114112 -> isbyte (h (GM + x))) -> flat E GM (a_hmem h a).
Proof. intros [A B C D] H. constructor; auto. Qed.
Lemma flat_om E P a b : flat E GM a -> only_memory P a b -> (forall x, 0 <= x < 1114112 -> isbyte (hmem b (GM + x))) -> flat E GM b.
Proof. intros F [-> _] H. apply flat_hmem; auto. Qed.
End Native.
