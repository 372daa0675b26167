(** Proofs about the native tester: disk geometry, extended read, keyboard. *)
From Verif Require Import Base Cpu Ops Machine Spec SpecOps SpecOps2 SpecSys SpecRun Native SpecNative PBase PMem PRun PExec PIInt PNative PNative2 PNative3 PNative5.

Section Native.
Context (GM : Z) (fdd : option (Z * (Z -> Z))).
Notation queue := (SpecNative.queue GM). Notation kstep := (SpecNative.kstep GM). Notation krun := (SpecNative.krun GM).
(** AH=08 *)
Theorem params_ok a : reg 8 AH a = 8 -> reg 8 DL a = 0 -> hle13 GM fdd a = NRet (params_result a).
Proof.
  intros H H0. unfold hle13. rewrite rAH, H. cbn [Z.eqb Pos.eqb]. unfold hle13_params. cbv zeta. rewrite clr_cf.
  assert (bl P_DX (a_flags (put CF false (r_flags a)) a) = 0) as -> by (rewrite <- rDL in H0; exact H0). cbn [disk_params Z.eqb].
  unfold disk_params. cbn [Z.eqb]. rewrite sAX, sBL, sCL, sCH, sDL, sDH, sDI by (vm_compute; split; congruence). reflexivity.
Qed.
Theorem params_refused a : reg 8 AH a = 8 -> reg 8 DL a <> 0 -> hle13 GM fdd a = NRet (a_flags (put CF true (put CF false (r_flags a))) a).
Proof.
  intros H H0. unfold hle13. rewrite rAH, H. cbn [Z.eqb Pos.eqb]. unfold hle13_params. cbv zeta. rewrite clr_cf.
  assert (bl P_DX (a_flags (put CF false (r_flags a)) a) = reg 8 DL a) as -> by (rewrite <- rDL; reflexivity). unfold disk_params. replace (reg 8 DL a =? 0) with false by lia. reflexivity.
Qed.
Ltac gs := first [rewrite getf_setf_same by lia | rewrite getf_setf_disjoint by lia].
Lemma params_regs a : let a' := params_result a in reg 16 AX a' = 0 /\ reg 8 BL a' = 4 /\ reg 8 CL a' = 18 /\ reg 8 CH a' = 79 /\ reg 8 DH a' = 1 /\ reg 8 DL a' = 1 /\ r_es a' = 0xF100 /\ reg 16 DI a' = 0.
Proof.
  cbv zeta. unfold params_result. rewrite <- sAX, <- sBL, <- sCL, <- sCH, <- sDL, <- sDH, <- sDI by lia. rewrite <- rAX, <- rBL, <- rCL, <- rCH, <- rDH, <- rDL, <- (bw_reg 7) by lia.
  unfold bl, bh, bw, set_bl, set_bh, set_bw, P_AX, P_BX, P_CX, P_DX, P_DI. cbn [a_gprs a_es a_flags gprs r_es].
  split; [repeat gs; reflexivity|]. split; [repeat gs; reflexivity|]. split; [repeat gs; reflexivity|]. split; [repeat gs; reflexivity|]. split; [repeat gs; reflexivity|]. split; [repeat gs; reflexivity|]. split; [reflexivity|].
  repeat gs; reflexivity.
Qed.
Theorem type_ok a : reg 8 AH a = 0x15 -> reg 8 DL a = 0 -> hle13 GM fdd a = NRet (with_reg 16 DX 0 (with_reg 16 CX 2880 (with_reg 8 AH 2 (a_flags (put CF false (r_flags a)) a)))).
Proof.
  intros H H0. unfold hle13. rewrite rAH, H. cbn [Z.eqb Pos.eqb]. unfold hle13_type. cbv zeta. rewrite clr_cf.
  assert (bl P_DX (a_flags (put CF false (r_flags a)) a) = 0) as -> by (rewrite <- rDL in H0; exact H0). unfold disk_params. cbn [Z.eqb].
  rewrite sAH, sCX, sDX by lia. reflexivity.
Qed.
Theorem reset_ok a : reg 8 AH a = 0 -> hle13 GM fdd a = NRet (with_reg 8 AH 0 (a_flags (put CF false (r_flags a)) a)).
Proof. intros H. unfold hle13. rewrite rAH, H. cbn [Z.eqb]. rewrite clr_cf, sAH by lia. reflexivity. Qed.
(** AH=42 *)
Lemma gget_byte E a x : flat E GM a -> 0 <= x < 1114112 -> gget GM x a = Some (byte a x).
Proof. intros F Hx. unfold gget, GSIZE. replace ((0 <=? x) && (x <? 1114112)) with true by lia. apply (byte_flat GM E a x F Hx). Qed.
Lemma gword_peek E a n : flat E GM a -> forall x, 0 <= x -> x + Z.of_nat n <= 1114112 -> gword GM n x a = Some (peek n a x).
Proof.
  intros F. induction n as [|n IH]; intros x H0 H1; cbn [gword peek]; [reflexivity|]. rewrite (gget_byte E) by (assumption || lia). rewrite IH by lia. reflexivity.
Qed.
Lemma peek_range E a n : flat E GM a -> forall x, 0 <= x -> x + Z.of_nat n <= 1114112 -> 0 <= peek n a x < 256 ^ Z.of_nat n.
Proof.
  intros F. induction n as [|n IH]; intros x H0 H1; cbn [peek]; [cbn; lia|]. destruct (byte_flat GM E a x F) as [_ B]; [lia|]. specialize (IH (x + 1) ltac:(lia) ltac:(lia)).
  rewrite Nat2Z.inj_succ, Z.pow_succ_r by lia. lia.
Qed.
Lemma ext_unfold E a : flat E GM a -> wf_regs a -> reg 8 AH a = 0x42 -> lin (r_ds a) (reg 16 SI a) + 16 <= 1114112 ->
  hle13 GM fdd a = if 0x110000 <? dap_buffer a + dap_count a * 512 then NRet (with_reg 8 AH 0xBB (a_flags (put CF true (r_flags a)) a))
    else match read_lba GM fdd (reg 8 DL a) (sgn 32 (dap_lba a)) (dap_count a) (dap_buffer a) a with
         | Some (_, a1) => NRet (set_bh P_AX 0 (clr_fl 1 a1)) | None => NUB end.
Proof.
  intros F W H Hp. assert (0 <= lin (r_ds a) (reg 16 SI a)). { pose proof (wf_ds a W) as K. pose proof (reg16_range SI a ltac:(lia)). unfold inrange, lin in *. lia. }
  unfold hle13. rewrite rAH, H. cbn [Z.eqb Pos.eqb]. unfold hle13_ext. cbv zeta. rewrite rSI, rDL.
  replace (r_ds a * 16 + reg 16 SI a) with (lin (r_ds a) (reg 16 SI a)) by (unfold lin; lia).
  rewrite !(gword_peek E) by (assumption || lia). rewrite set_cf, sAH by lia. unfold dap_buffer, dap_count, dap_lba, mem. change (Z.to_nat (16 / 8)) with 2%nat.
  set (q := lin (r_ds a) (reg 16 SI a)) in *. clearbody q. unfold lin. rewrite !(Z.mul_comm 16 (peek 2 a _)). reflexivity.
Qed.
Theorem ext_ok E a len img : flat E GM a -> wf_regs a -> fdd = Some (len, img) -> image_ok (len, img) ->
  reg 8 AH a = 0x42 -> reg 8 DL a = 0 -> lin (r_ds a) (reg 16 SI a) + 16 <= 1114112 ->
  let p := dap_buffer a in let n := 512 * dap_count a in let from := 512 * dap_lba a in
  p + n <= 1114112 -> from + n <= len -> from < 2 ^ 31 ->
  exists h, hle13 GM fdd a = NRet (with_reg 8 AH 0 (a_flags (put CF false (r_flags a)) (a_hmem h a))) /\
    stored p n (fun k => img (from + k)) a (a_hmem h a) /\ (forall x, ~ guest GM p n x -> h x = hmem a x).
Proof.
  intros F W Hfd (L0 & Hi) H H0 Hd. cbv zeta. intros Hb Hl Hm. cbn [fst snd] in *. rewrite (ext_unfold E) by assumption.
  assert (P : 0 <= lin (r_ds a) (reg 16 SI a)). { pose proof (wf_ds a W) as K. pose proof (reg16_range SI a ltac:(lia)). unfold inrange, lin in *. lia. }
  assert (C : 0 <= dap_count a < 65536) by (unfold dap_count, mem; apply (peek_range E a 2 F); cbn; lia).
  assert (B : 0 <= dap_buffer a).
  { unfold dap_buffer, mem, lin at 1. change (Z.to_nat (16 / 8)) with 2%nat. pose proof (peek_range E a 2 F (lin (r_ds a) (reg 16 SI a) + 6) ltac:(lia) ltac:(lia)). pose proof (peek_range E a 2 F (lin (r_ds a) (reg 16 SI a) + 4) ltac:(lia) ltac:(lia)). lia. }
  assert (L : 0 <= dap_lba a) by (apply (peek_range E a 8 F); lia).
  replace (1114112 <? dap_buffer a + dap_count a * 512) with false by lia. unfold read_lba. rewrite H0, Hfd. cbn [Z.eqb].
  assert (sgn 32 (dap_lba a) = dap_lba a) as -> by (unfold sgn, wrap; rewrite Z.mod_small by lia; replace (dap_lba a <? 2 ^ (32 - 1)) with true by lia; reflexivity).
  replace ((dap_lba a * 512 <? -2147483648) || (2147483647 <? dap_lba a * 512)) with false by lia. replace (dap_lba a * 512 <? 0) with false by lia. cbv zeta.
  replace (Z.min (512 * dap_count a) (Z.max 0 (len - dap_lba a * 512))) with (512 * dap_count a) by lia.
  destruct (gfill_some GM (dap_buffer a) (512 * dap_count a) (fun k => img (dap_lba a * 512 + k)) a) as (h & -> & Hh); [lia|lia|lia|].
  exists h. split; [rewrite sAH, clr_cf by lia; reflexivity|]. apply (fill_stored GM E); try assumption; try lia.
  - intros k Hk. apply Hi. lia.
  - intros x. rewrite Hh. replace (dap_lba a * 512) with (512 * dap_lba a) by lia. reflexivity.
Qed.
(** Never outside guest memory: the only undefined cases are an unreadable packet and a sector number whose
    byte offset does not fit an int. *)
Theorem ext_safe E a len img : flat E GM a -> wf_regs a -> fdd = Some (len, img) ->
  reg 8 AH a = 0x42 -> lin (r_ds a) (reg 16 SI a) + 16 <= 1114112 -> -(2 ^ 22) <= sgn 32 (dap_lba a) < 2 ^ 22 ->
  exists a', hle13 GM fdd a = NRet a' /\ svc GM a a'.
Proof.
  intros F W Hfd H Hd Hl.
  assert (X : exists a', hle13 GM fdd a = NRet a').
  { rewrite (ext_unfold E) by assumption. destruct (Z.ltb_spec 1114112 (dap_buffer a + dap_count a * 512)); [eauto|].
    assert (P : 0 <= lin (r_ds a) (reg 16 SI a)). { pose proof (wf_ds a W) as K. pose proof (reg16_range SI a ltac:(lia)). unfold inrange, lin in *. lia. }
    assert (C : 0 <= dap_count a < 65536) by (unfold dap_count, mem; apply (peek_range E a 2 F); cbn; lia).
    assert (B : 0 <= dap_buffer a).
    { unfold dap_buffer, mem, lin at 1. change (Z.to_nat (16 / 8)) with 2%nat. pose proof (peek_range E a 2 F (lin (r_ds a) (reg 16 SI a) + 6) ltac:(lia) ltac:(lia)). pose proof (peek_range E a 2 F (lin (r_ds a) (reg 16 SI a) + 4) ltac:(lia) ltac:(lia)). lia. }
    unfold read_lba. destruct (_ =? 0); [|eauto]. rewrite Hfd. replace ((sgn 32 (dap_lba a) * 512 <? -2147483648) || (2147483647 <? sgn 32 (dap_lba a) * 512)) with false by lia.
    destruct (_ <? 0).
    - destruct (gfill_some GM (dap_buffer a) (512 * dap_count a) (fun _ => 0) a) as (h & -> & _); [lia|lia|lia|eauto].
    - cbv zeta. match goal with |- context [gfill GM _ ?n ?f a] => destruct (gfill_some GM (dap_buffer a) n f a) as (h & -> & _); [lia|lia|lia|eauto] end. }
  destruct X as (a' & X). exists a'. split; [exact X|]. eapply svc_13. exact X.
Qed.
(** Success is reported although nothing was read. *)
Theorem ext_lies E a len img : flat E GM a -> wf_regs a -> fdd = Some (len, img) ->
  reg 8 AH a = 0x42 -> lin (r_ds a) (reg 16 SI a) + 16 <= 1114112 -> dap_buffer a + 512 * dap_count a <= 1114112 ->
  reg 8 DL a <> 0 \/ (reg 8 DL a = 0 /\ 0 <= len <= 512 * dap_lba a /\ 512 * dap_lba a < 2 ^ 31) ->
  hle13 GM fdd a = NRet (with_reg 8 AH 0 (a_flags (put CF false (r_flags a)) a)).
Proof.
  intros F W Hfd H Hd Hb Hn. rewrite (ext_unfold E) by assumption. replace (1114112 <? dap_buffer a + dap_count a * 512) with false by lia.
  assert (P : 0 <= lin (r_ds a) (reg 16 SI a)). { pose proof (wf_ds a W) as K. pose proof (reg16_range SI a ltac:(lia)). unfold inrange, lin in *. lia. }
  assert (C : 0 <= dap_count a < 65536) by (unfold dap_count, mem; apply (peek_range E a 2 F); cbn; lia).
  assert (L : 0 <= dap_lba a) by (apply (peek_range E a 8 F); lia).
  assert (X : exists r, read_lba GM fdd (reg 8 DL a) (sgn 32 (dap_lba a)) (dap_count a) (dap_buffer a) a = Some (r, a)).
  { unfold read_lba. destruct Hn as [Hn|(H0 & Hn & Hm)]; [replace (reg 8 DL a =? 0) with false by lia; eauto|]. rewrite H0, Hfd. cbn [Z.eqb].
    assert (sgn 32 (dap_lba a) = dap_lba a) as -> by (unfold sgn, wrap; rewrite Z.mod_small by lia; replace (dap_lba a <? 2 ^ (32 - 1)) with true by lia; reflexivity).
    replace ((dap_lba a * 512 <? -2147483648) || (2147483647 <? dap_lba a * 512)) with false by lia. replace (dap_lba a * 512 <? 0) with false by lia. cbv zeta.
    replace (Z.min (512 * dap_count a) (Z.max 0 (len - dap_lba a * 512))) with 0 by lia. unfold gfill. cbn [Z.leb Z.compare]. eauto. }
  destruct X as (r & ->). rewrite sAH, clr_cf by lia. reflexivity.
Qed.
(** ** Keyboard *)
Notation KPOS := (G_KPOS GM). Notation KEYS := (G_KEYS GM).
Lemma queue_ext a a' q : queue a q -> (forall x, KPOS <= x < KPOS + 36 -> hmem a' x = hmem a x) -> queue a' q.
Proof.
  intros (L & P & K) H. split; [exact L|]. split; [rewrite <- P; apply gint_ext; intros x Hx; apply H; lia|].
  intros i k Hi. destruct (K i k Hi) as (R & A & B). assert (i < length q)%nat by (apply nth_error_Some; congruence).
  unfold G_KPOS, G_KEYS in *. rewrite !H by lia. auto.
Qed.
Lemma down_ok sym a q : queue a q -> exists a', key_down GM sym a = NRet a' /\ queue a' (enqueue (sym mod 256) q) /\ only_memory (global GM) a a'.
Proof.
  intros (L & P & K). unfold key_down. cbv zeta. rewrite P. unfold enqueue, QMAX.
  destruct (Z.eqb_spec (Z.of_nat (length q)) 16) as [E|E].
  - exists a. split; [reflexivity|]. replace (Nat.ltb (length q) 16) with false by (symmetry; apply Nat.ltb_ge; lia). split; [split; [exact L|]; split; [exact P|exact K]|apply om_refl].
  - replace ((Z.of_nat (length q) <? 0) || (16 <? Z.of_nat (length q))) with false by lia. eexists. split; [reflexivity|].
    replace (Nat.ltb (length q) 16) with true by (symmetry; apply Nat.ltb_lt; lia). set (n := Z.of_nat (length q)) in *.
    split; [split; [|split]|].
    + rewrite app_length. cbn [length]. lia.
    + rewrite gint_small by lia. rewrite app_length. cbn [length]. lia.
    + intros i k Hi. assert (forall x, KEYS <= x < KEYS + 32 -> hmem (set_gint KPOS (n + 1) (set_gbyte (KEYS + 2 * n + 1) sym (set_gbyte (KEYS + 2 * n) sym a))) x
        = if x =? KEYS + 2 * n + 1 then Some (wrap 8 sym) else if x =? KEYS + 2 * n then Some (wrap 8 sym) else hmem a x) as HH.
      { intros x Hx. rewrite set_gint_hmem. unfold G_KPOS, G_KEYS in *. replace ((GM + 2097164 <=? x) && (x <? GM + 2097164 + 4)) with false by lia. reflexivity. }
      destruct (lt_dec i (length q)) as [Hl|Hl].
      * rewrite nth_error_app1 in Hi by lia. destruct (K i k Hi) as (R & A & B). split; [exact R|]. rewrite !HH by lia.
        replace (KEYS + 2 * Z.of_nat i =? KEYS + 2 * n + 1) with false by lia. replace (KEYS + 2 * Z.of_nat i =? KEYS + 2 * n) with false by lia.
        replace (KEYS + 2 * Z.of_nat i + 1 =? KEYS + 2 * n + 1) with false by lia. replace (KEYS + 2 * Z.of_nat i + 1 =? KEYS + 2 * n) with false by lia. auto.
      * rewrite nth_error_app2 in Hi by lia. assert (i = length q) as -> by (destruct (i - length q)%nat as [|j] eqn:Ei; [lia|]; cbn in Hi; destruct j; discriminate).
        rewrite Nat.sub_diag in Hi. cbn in Hi. injection Hi as <-. split; [lia|]. fold n. rewrite !HH by lia. rewrite Z.eqb_refl. replace (KEYS + 2 * n =? KEYS + 2 * n + 1) with false by lia. rewrite Z.eqb_refl. auto.
    + split; [reflexivity|]. intros x Hx. rewrite set_gint_hmem. unfold global, G_KPOS, G_KEYS in *. replace ((GM + 2097164 <=? x) && (x <? GM + 2097164 + 4)) with false by lia.
      unfold set_gbyte. cbn [a_hmem hmem]. rewrite !hput_at. replace (x =? GM + 2097168 + 2 * n + 1) with false by lia. replace (x =? GM + 2097168 + 2 * n) with false by lia. reflexivity.
Qed.
Lemma key0 a k q : queue a (k :: q) -> key_scan GM 0 a = k /\ key_ascii GM 0 a = k /\ 0 <= k < 256.
Proof.
  intros (L & P & K). destruct (K 0%nat k eq_refl) as (R & A & B). unfold key_scan, key_ascii, gbyte. change (2 * Z.of_nat 0) with (2 * 0) in *. rewrite A, B. auto.
Qed.
Theorem read_key gui a k q : queue a (k :: q) -> reg 8 AH a = 0 -> exists h, hle16 GM gui a = NRet (a_hmem h (with_reg 8 AL k (with_reg 8 AH k a))) /\
  queue (a_hmem h (with_reg 8 AL k (with_reg 8 AH k a))) q /\ (forall x, ~ global GM x -> h x = hmem a x).
Proof.
  intros Q H. destruct (key0 a k q Q) as (S & A & R). destruct Q as (L & P & K). cbn [length] in *.
  unfold hle16. rewrite rAH, H. cbn [Z.eqb]. rewrite P. replace (Z.of_nat (Datatypes.S (length q)) =? 0) with false by lia. cbv zeta. rewrite S, A. rewrite sAH, sAL by exact R.
  replace (Z.of_nat (Datatypes.S (length q)) - 1) with (Z.of_nat (length q)) by lia. set (n := Z.of_nat (length q)) in *. replace ((n <? 0) || (15 <? n)) with false by lia.
  set (b := with_reg 8 AL k (with_reg 8 AH k a)). assert (Hb : hmem b = hmem a) by reflexivity. clearbody b.
  exists (hmem (shift_keys GM n (set_gint KPOS n b))). split; [f_equal; destruct b; reflexivity|]. split; [split; [lia|split]|].
  - assert (G : gint KPOS (set_gint KPOS n b) = n) by (apply gint_small; lia). fold n. transitivity (gint KPOS (set_gint KPOS n b)); [|exact G]. apply gint_ext. intros x Hx. unfold shift_keys. cbn [a_hmem hmem].
    unfold G_KPOS, G_KEYS in *. replace ((GM + 2097168 <=? x) && (x <? GM + 2097168 + 2 * n)) with false by lia. reflexivity.
  - intros i j Hi. assert (i < length q)%nat by (apply nth_error_Some; congruence). destruct (K (Datatypes.S i) j Hi) as (Rj & Aj & Bj). split; [exact Rj|].
    unfold shift_keys. cbn [a_hmem hmem]. replace ((KEYS <=? KEYS + 2 * Z.of_nat i) && (KEYS + 2 * Z.of_nat i <? KEYS + 2 * n)) with true by lia.
    replace ((KEYS <=? KEYS + 2 * Z.of_nat i + 1) && (KEYS + 2 * Z.of_nat i + 1 <? KEYS + 2 * n)) with true by lia.
    rewrite !set_gint_hmem, Hb. unfold G_KPOS, G_KEYS in *.
    replace ((GM + 2097164 <=? GM + 2097168 + 2 * Z.of_nat i + 2) && (GM + 2097168 + 2 * Z.of_nat i + 2 <? GM + 2097164 + 4)) with false by lia.
    replace ((GM + 2097164 <=? GM + 2097168 + 2 * Z.of_nat i + 1 + 2) && (GM + 2097168 + 2 * Z.of_nat i + 1 + 2 <? GM + 2097164 + 4)) with false by lia.
    replace (GM + 2097168 + 2 * Z.of_nat i + 2) with (GM + 2097168 + 2 * Z.of_nat (Datatypes.S i)) by lia.
    replace (GM + 2097168 + 2 * Z.of_nat i + 1 + 2) with (GM + 2097168 + 2 * Z.of_nat (Datatypes.S i) + 1) by lia. auto.
  - intros x Hx. unfold shift_keys. cbn [a_hmem hmem]. unfold global, G_KEYS in *. replace ((GM + 2097168 <=? x) && (x <? GM + 2097168 + 2 * n)) with false by lia.
    rewrite set_gint_hmem, Hb. unfold G_KPOS. replace ((GM + 2097164 <=? x) && (x <? GM + 2097164 + 4)) with false by lia. reflexivity.
Qed.
Theorem peek_key gui a k q : queue a (k :: q) -> reg 8 AH a = 1 \/ reg 8 AH a = 0x11 ->
  hle16 GM gui a = NRet (a_flags (put ZF false (r_flags a)) (with_reg 8 AL k (with_reg 8 AH k a))).
Proof.
  intros Q H. destruct (key0 a k q Q) as (S & A & R). destruct Q as (L & P & K). cbn [length] in *.
  unfold hle16. rewrite rAH, P. replace (reg 8 AH a =? 0) with false by lia. replace ((reg 8 AH a =? 1) || (reg 8 AH a =? 17)) with true by lia.
  replace (0 <? Z.of_nat (Datatypes.S (length q))) with true by lia. rewrite S, A, sAH, sAL by exact R. reflexivity.
Qed.
Theorem peek_none gui a : queue a [] -> reg 8 AH a = 1 \/ reg 8 AH a = 0x11 -> hle16 GM gui a = NRet (a_flags (put ZF true (r_flags a)) a).
Proof.
  intros (L & P & K) H. unfold hle16. rewrite rAH, P. replace (reg 8 AH a =? 0) with false by lia. replace ((reg 8 AH a =? 1) || (reg 8 AH a =? 17)) with true by lia. reflexivity.
Qed.
Theorem read_none gui a : queue a [] -> reg 8 AH a = 0 -> hle16 GM gui a = if gui then NWait else NExit 0 a.
Proof. intros (L & P & K) H. unfold hle16. rewrite rAH, P, H. reflexivity. Qed.
Lemma queue_reg w n v a q : queue a q -> queue (with_reg w n v a) q.
Proof. intros H. apply (queue_ext a); [exact H|]. intros x _. unfold with_reg, with_gpr. destruct (w =? 8); [destruct (n <? 4)|]; reflexivity. Qed.
Lemma queue_flags f a q : queue a q -> queue (a_flags f a) q. Proof. intros H. apply (queue_ext a); [exact H|]. reflexivity. Qed.
Lemma ah_set v a : 0 <= v < 256 -> reg 8 AH (with_reg 8 AH v a) = v.
Proof. intros H. rewrite <- sAH by exact H. rewrite <- rAH. unfold bh, set_bh, P_AX. cbn [a_gprs gprs]. rewrite getf_setf_same by lia. apply wrap_small. exact H. Qed.
Lemma al_set v a : 0 <= v < 256 -> reg 8 AL (with_reg 8 AL v a) = v.
Proof. intros H. rewrite <- sAL by exact H. rewrite <- rAL. unfold bl, set_bl, P_AX. cbn [a_gprs gprs]. rewrite getf_setf_same by lia. apply wrap_small. exact H. Qed.
Lemma reg_of_hmem w n h a : reg w n (a_hmem h a) = reg w n a. Proof. reflexivity. Qed.
Lemma reg_of_flags w n f a : reg w n (a_flags f a) = reg w n a. Proof. reflexivity. Qed.
Theorem history_ok es : forall a q, queue a q -> exists a', krun es a = Some (a', snd (fifo_run es q)) /\ queue a' (fst (fifo_run es q)).
Proof.
  induction es as [|e es IH]; intros a q Q; cbn [krun fifo_run]; [exists a; auto|].
  assert (X : exists a1, kstep e a = (NRet a1, snd (fifo e q)) /\ queue a1 (fst (fifo e q))).
  { destruct e as [s| |]; cbn [kstep fifo fst snd].
    - destruct (down_ok s a q Q) as (a1 & -> & Q1 & _). eauto.
    - pose proof (queue_reg 8 AH 0 a q Q) as Q0. destruct q as [|k q].
      + rewrite (read_none true _ Q0) by (apply ah_set; lia). cbn [fst snd]. eauto.
      + destruct (read_key true _ k q Q0) as (h & -> & Q1 & _); [apply ah_set; lia|]. cbn [fst snd]. eexists. split; [|exact Q1]. f_equal. f_equal.
        destruct (key0 _ _ _ Q0) as (_ & _ & R). rewrite reg_of_hmem. apply al_set, R.
    - pose proof (queue_reg 8 AH 1 a q Q) as Q0. destruct q as [|k q].
      + rewrite (peek_none true _ Q0) by (left; apply ah_set; lia). cbn [fst snd hd_error]. eexists. split; [|apply queue_flags; exact Q0].
        cbn [a_flags r_flags]. unfold flag, put. rewrite Z.setbit_eq by lia. reflexivity.
      + rewrite (peek_key true _ k q Q0) by (left; apply ah_set; lia). cbn [fst snd hd_error]. eexists. split; [|apply queue_flags, queue_reg, queue_reg; exact Q0].
        cbn [a_flags r_flags]. unfold flag, put. rewrite Z.clearbit_eq by lia. f_equal. f_equal.
        destruct (key0 _ _ _ Q0) as (_ & _ & R). rewrite reg_of_flags. apply al_set, R. }
  destruct X as (a1 & -> & Q1). destruct (fifo e q) as [q1 r]. cbn [fst snd] in *. destruct (IH a1 q1 Q1) as (a2 & -> & Q2). destruct (fifo_run es q1) as [q2 rs]. cbn [fst snd] in *. eauto.
Qed.
(** Reading the key queue only. *)
End Native.
