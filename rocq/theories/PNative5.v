(** Proofs about the native tester: disk services. *)
From Verif Require Import Base Cpu Ops Machine Spec SpecOps SpecOps2 SpecSys SpecRun Native SpecNative PBase PMem PRun PExec PIInt PNative PNative2 PNative3.

(** Registers in specification terms. *)
Lemma bl_reg n a : 0 <= n < 4 -> bl (32 * n) a = reg 8 n a.
Proof. intros H. rewrite reg_getf by (unfold width; lia). unfold rpos. cbn [Z.eqb Pos.eqb]. replace (n <? 4) with true by lia. reflexivity. Qed.
Lemma bh_reg n a : 0 <= n < 4 -> bh (32 * n) a = reg 8 (n + 4) a.
Proof. intros H. rewrite reg_getf by (unfold width; lia). unfold rpos. cbn [Z.eqb Pos.eqb]. replace (n + 4 <? 4) with false by lia. unfold bh. replace (32 * (n + 4 - 4)) with (32 * n) by lia. reflexivity. Qed.
Lemma bw_reg n a : 0 <= n < 8 -> bw (32 * n) a = reg 16 n a.
Proof. intros H. rewrite reg_getf by (unfold width; lia). reflexivity. Qed.
Lemma set_bl_reg n v a : 0 <= n < 4 -> 0 <= v < 256 -> set_bl (32 * n) v a = with_reg 8 n v a.
Proof. intros H Hv. rewrite with_reg_setf by (unfold width, inrange; lia). unfold rpos. cbn [Z.eqb Pos.eqb]. replace (n <? 4) with true by lia. reflexivity. Qed.
Lemma set_bh_reg n v a : 0 <= n < 4 -> 0 <= v < 256 -> set_bh (32 * n) v a = with_reg 8 (n + 4) v a.
Proof. intros H Hv. rewrite with_reg_setf by (unfold width, inrange; lia). unfold rpos. cbn [Z.eqb Pos.eqb]. replace (n + 4 <? 4) with false by lia. unfold set_bh. replace (32 * (n + 4 - 4)) with (32 * n) by lia. reflexivity. Qed.
Lemma set_bw_reg n v a : 0 <= n < 8 -> 0 <= v < 65536 -> set_bw (32 * n) v a = with_reg 16 n v a.
Proof. intros H Hv. rewrite with_reg_setf by (unfold width, inrange; lia). reflexivity. Qed.
Lemma reg8_range n a : 0 <= n < 8 -> 0 <= reg 8 n a < 256.
Proof. intros H. apply (reg_range 8); unfold width; lia. Qed.
Lemma reg16_range n a : 0 <= n < 8 -> 0 <= reg 16 n a < 65536.
Proof. intros H. apply (reg_range 16); unfold width; lia. Qed.
Lemma rAL a : bl P_AX a = reg 8 AL a. Proof. apply (bl_reg 0). lia. Qed.
Lemma rAH a : bh P_AX a = reg 8 AH a. Proof. apply (bh_reg 0). lia. Qed.
Lemma rCL a : bl P_CX a = reg 8 CL a. Proof. apply (bl_reg 1). lia. Qed.
Lemma rCH a : bh P_CX a = reg 8 CH a. Proof. apply (bh_reg 1). lia. Qed.
Lemma rDL a : bl P_DX a = reg 8 DL a. Proof. apply (bl_reg 2). lia. Qed.
Lemma rDH a : bh P_DX a = reg 8 DH a. Proof. apply (bh_reg 2). lia. Qed.
Lemma rBL a : bl P_BX a = reg 8 BL a. Proof. apply (bl_reg 3). lia. Qed.
Lemma rBH a : bh P_BX a = reg 8 BH a. Proof. apply (bh_reg 3). lia. Qed.
Lemma rBX a : bw P_BX a = reg 16 BX a. Proof. apply (bw_reg 3). lia. Qed.
Lemma rCX a : bw P_CX a = reg 16 CX a. Proof. apply (bw_reg 1). lia. Qed.
Lemma rAX a : bw P_AX a = reg 16 AX a. Proof. apply (bw_reg 0). lia. Qed.
Lemma rSI a : bw P_SI a = reg 16 SI a. Proof. apply (bw_reg 6). lia. Qed.
Lemma clr_cf a : clr_fl 1 a = a_flags (put CF false (r_flags a)) a. Proof. reflexivity. Qed.
Lemma set_cf a : set_fl 1 a = a_flags (put CF true (r_flags a)) a. Proof. reflexivity. Qed.
(** CH, CL decoding. *)
Lemma all256 (f : Z -> bool) : forallb f (map Z.of_nat (seq 0 256)) = true -> forall x, 0 <= x < 256 -> f x = true.
Proof.
  intros H x Hx. rewrite forallb_forall in H. apply H. apply in_map_iff. exists (Z.to_nat x). split; [lia|]. apply in_seq. lia.
Qed.
Lemma cl_sect cl : 0 <= cl < 256 -> Z.land cl 0x3F = cx_sect cl.
Proof. intros H. unfold cx_sect. apply Z.eqb_eq. revert cl H. apply (all256 (fun cl => Z.land cl 63 =? cl mod 64)). vm_compute. reflexivity. Qed.
Lemma cl_hi cl : 0 <= cl < 256 -> Z.land cl 0xC0 * 4 = 256 * (cl / 64).
Proof. intros H. apply Z.eqb_eq. revert cl H. apply (all256 (fun cl => Z.land cl 192 * 4 =? 256 * (cl / 64))). vm_compute. reflexivity. Qed.
Lemma ch_cyl ch cl : 0 <= ch < 256 -> 0 <= cl < 256 -> Z.lor ch (Z.land cl 0xC0 * 4) = cx_cyl ch cl.
Proof.
  intros H1 H2. rewrite cl_hi by exact H2. unfold cx_cyl. assert (0 <= cl / 64 < 4) as Hk by lia. set (k := cl / 64) in *. clearbody k.
  apply Z.eqb_eq. revert ch H1. apply (all256 (fun ch => Z.lor ch (256 * k) =? ch + 256 * k)).
  assert (k = 0 \/ k = 1 \/ k = 2 \/ k = 3) as [->|[->|[->| ->]]] by lia; vm_compute; reflexivity.
Qed.
Lemma al_zero al : 0 <= al < 256 -> Z.land al 0x3F = al mod 64.
Proof. apply cl_sect. Qed.

Lemma sAL v a : 0 <= v < 256 -> set_bl P_AX v a = with_reg 8 AL v a. Proof. apply (set_bl_reg 0). lia. Qed.
Lemma sAH v a : 0 <= v < 256 -> set_bh P_AX v a = with_reg 8 AH v a. Proof. apply (set_bh_reg 0). lia. Qed.
Lemma sCL v a : 0 <= v < 256 -> set_bl P_CX v a = with_reg 8 CL v a. Proof. apply (set_bl_reg 1). lia. Qed.
Lemma sCH v a : 0 <= v < 256 -> set_bh P_CX v a = with_reg 8 CH v a. Proof. apply (set_bh_reg 1). lia. Qed.
Lemma sDL v a : 0 <= v < 256 -> set_bl P_DX v a = with_reg 8 DL v a. Proof. apply (set_bl_reg 2). lia. Qed.
Lemma sDH v a : 0 <= v < 256 -> set_bh P_DX v a = with_reg 8 DH v a. Proof. apply (set_bh_reg 2). lia. Qed.
Lemma sBL v a : 0 <= v < 256 -> set_bl P_BX v a = with_reg 8 BL v a. Proof. apply (set_bl_reg 3). lia. Qed.
Lemma sBH v a : 0 <= v < 256 -> set_bh P_BX v a = with_reg 8 BH v a. Proof. apply (set_bh_reg 3). lia. Qed.
Lemma sAX v a : 0 <= v < 65536 -> set_bw P_AX v a = with_reg 16 AX v a. Proof. apply (set_bw_reg 0). lia. Qed.
Lemma sCX v a : 0 <= v < 65536 -> set_bw P_CX v a = with_reg 16 CX v a. Proof. apply (set_bw_reg 1). lia. Qed.
Lemma sDX v a : 0 <= v < 65536 -> set_bw P_DX v a = with_reg 16 DX v a. Proof. apply (set_bw_reg 2). lia. Qed.
Lemma sDI v a : 0 <= v < 65536 -> set_bw P_DI v a = with_reg 16 DI v a. Proof. apply (set_bw_reg 7). lia. Qed.

Section Native.
Context (GM : Z) (fdd : option (Z * (Z -> Z))).
Lemma gfill_some i n f a : 0 <= i -> 0 <= n -> i + n <= 1114112 -> exists h, gfill GM i n f a = Some (a_hmem h a) /\
  (forall x, h x = if (GM + i <=? x) && (x <? GM + i + n) then Some (wrap 8 (f (x - (GM + i)))) else hmem a x).
Proof.
  intros Hi Hn Hs. unfold gfill, GSIZE. destruct (Z.leb_spec n 0).
  - exists (hmem a). split; [destruct a; reflexivity|]. intros x. replace ((GM + i <=? x) && (x <? GM + i + n)) with false by lia. reflexivity.
  - replace ((0 <=? i) && (i + n <=? 1114112)) with true by lia. eexists. split; [reflexivity|]. reflexivity.
Qed.
Lemma gfill_none i n f a : 0 < n -> 1114112 < i + n -> gfill GM i n f a = None.
Proof. intros Hn Hs. unfold gfill, GSIZE. replace (n <=? 0) with false by lia. replace ((0 <=? i) && (i + n <=? 1114112)) with false by lia. reflexivity. Qed.
Lemma byte_map E a h x : flat E GM a -> 0 <= x < 1114112 -> byte (a_hmem h a) x = match h (GM + x) with Some b => b | None => 0 end.
Proof.
  intros F Hx. unfold byte, host. cbn [a_hmem hmem mtab]. rewrite (fl_tab E GM a F) by lia. replace (GM + 4096 * (x / 4096) + x mod 4096) with (GM + x) by lia. reflexivity.
Qed.
Lemma fill_stored E i n f a h : flat E GM a -> 0 <= i -> 0 <= n -> i + n <= 1114112 -> (forall k, 0 <= k < n -> 0 <= f k < 256) ->
  (forall x, h x = if (GM + i <=? x) && (x <? GM + i + n) then Some (wrap 8 (f (x - (GM + i)))) else hmem a x) ->
  stored i n f a (a_hmem h a) /\ (forall x, ~ guest GM i n x -> h x = hmem a x).
Proof.
  intros F Hi Hn Hs Hf Hh. split.
  - intros x Hx. rewrite (byte_map E) by assumption. rewrite Hh. replace ((GM + i <=? GM + x) && (GM + x <? GM + i + n)) with ((i <=? x) && (x <? i + n)) by lia.
    destruct (Z.leb_spec i x), (Z.ltb_spec x (i + n)); cbn [andb].
    + replace (GM + x - (GM + i)) with (x - i) by lia. apply wrap_small. apply Hf. lia.
    + destruct (byte_flat GM E a x F Hx) as [-> _]. reflexivity.
    + destruct (byte_flat GM E a x F Hx) as [-> _]. reflexivity.
    + destruct (byte_flat GM E a x F Hx) as [-> _]. reflexivity.
  - intros x Hx. rewrite Hh. unfold guest in Hx. replace ((GM + i <=? x) && (x <? GM + i + n)) with false by lia. reflexivity.
Qed.
(** AH=02 *)
Lemma read_unfold a : reg 8 AH a = 2 -> hle13 GM fdd a =
  if reg 8 AL a mod 64 =? 0 then NRet (a_flags (put CF true (r_flags a)) a)
  else match read_chs GM fdd (reg 8 DL a) (cx_cyl (reg 8 CH a) (reg 8 CL a)) (reg 8 DH a) (cx_sect (reg 8 CL a)) (reg 8 AL a) (lin (r_es a) (reg 16 BX a)) a with
    | None => NUB
    | Some (r, a1) =>
      if r <? 0 then NRet (set_fl 1 (set_bh P_AX (- r) a1))
      else if negb (r =? bl P_AX a1) then NRet (set_fl 1 (set_bl P_AX r a1))
      else NRet (clr_fl 1 (set_bh P_AX 0 a1))
    end.
Proof.
  intros H. unfold hle13. rewrite rAH, H. cbn [Z.eqb Pos.eqb]. unfold hle13_read. rewrite rAL, al_zero by (apply reg8_range; lia). rewrite set_cf.
  destruct (_ mod 64 =? 0); [reflexivity|]. cbv zeta. rewrite rDL, rCH, rCL, rDH, rBX. rewrite ch_cyl, cl_sect by (apply reg8_range; lia).
  unfold lin. rewrite (Z.mul_comm (r_es a) 16). reflexivity.
Qed.
Lemma bl_hmem h a : bl P_AX (a_hmem h a) = reg 8 AL a. Proof. rewrite <- rAL. reflexivity. Qed.
Lemma cyl_range a : 0 <= cx_cyl (reg 8 CH a) (reg 8 CL a) < 1024 /\ 0 <= cx_sect (reg 8 CL a) < 64 /\ 0 <= reg 8 DH a < 256 /\ 0 <= reg 8 DL a < 256 /\ 0 <= reg 8 AL a < 256.
Proof.
  pose proof (reg8_range CH a ltac:(lia)). pose proof (reg8_range CL a ltac:(lia)). pose proof (reg8_range DH a ltac:(lia)). pose proof (reg8_range DL a ltac:(lia)). pose proof (reg8_range AL a ltac:(lia)).
  unfold cx_cyl, cx_sect. lia.
Qed.
Theorem read_ok E a len img : flat E GM a -> wf_regs a -> fdd = Some (len, img) -> image_ok (len, img) ->
  reg 8 AH a = 2 -> reg 8 DL a = 0 -> chs_valid a -> reg 8 AL a mod 64 <> 0 ->
  let p := lin (r_es a) (reg 16 BX a) in let n := 512 * reg 8 AL a in let from := 512 * chs_lba a in
  from + n <= len -> p + n <= 1114112 ->
  exists h, hle13 GM fdd a = NRet (a_flags (put CF false (r_flags a)) (with_reg 8 AH 0 (a_hmem h a))) /\
    stored p n (fun k => img (from + k)) a (a_hmem h a) /\ (forall x, ~ guest GM p n x -> h x = hmem a x).
Proof.
  intros F W Hfd (L0 & Hi) H2 H0 (V1 & V2 & V3) Hc. cbv zeta. intros Hlen Hbuf. destruct (cyl_range a) as (R1 & R2 & R3 & R4 & R5). cbn [fst snd] in *.
  assert (Hp : 0 <= lin (r_es a) (reg 16 BX a)). { pose proof (wf_es a W) as K. pose proof (reg16_range BX a ltac:(lia)). unfold inrange, lin in *. lia. }
  rewrite read_unfold by exact H2. replace (reg 8 AL a mod 64 =? 0) with false by lia. unfold read_chs. rewrite H0. unfold disk_params. cbn [Z.eqb].
  unfold CYLINDERS, HEADS, SECTORS in *. replace (80 <=? cx_cyl (reg 8 CH a) (reg 8 CL a)) with false by lia. replace (2 <=? reg 8 DH a) with false by lia. replace (18 <? cx_sect (reg 8 CL a)) with false by lia.
  unfold read_lba. cbn [Z.eqb]. rewrite Hfd. set (l := cx_cyl (reg 8 CH a) (reg 8 CL a) * 2 * 18 + reg 8 DH a * 18 + cx_sect (reg 8 CL a) - 1).
  assert (El : l = chs_lba a) by (unfold l, chs_lba, lba_of, HEADS, SECTORS; lia). rewrite El in *. clearbody l. assert (0 <= chs_lba a < 2880) as Rl by (unfold chs_lba, lba_of, HEADS, SECTORS; lia).
  replace ((chs_lba a * 512 <? -2147483648) || (2147483647 <? chs_lba a * 512)) with false by lia. replace (chs_lba a * 512 <? 0) with false by lia. cbv zeta.
  replace (Z.min (512 * reg 8 AL a) (Z.max 0 (len - chs_lba a * 512))) with (512 * reg 8 AL a) by lia.
  destruct (gfill_some (lin (r_es a) (reg 16 BX a)) (512 * reg 8 AL a) (fun k => img (chs_lba a * 512 + k)) a) as (h & -> & Hh); [lia|lia|lia|].
  exists h. replace (512 * reg 8 AL a / 512) with (reg 8 AL a) by lia. replace (reg 8 AL a <? 0) with false by lia. rewrite bl_hmem, Z.eqb_refl. cbn [negb].
  split. { rewrite clr_cf. rewrite sAH by lia. reflexivity. }
  apply (fill_stored E) ; try assumption; try lia.
  - intros k Hk. apply Hi. lia.
  - intros x. rewrite Hh. replace (chs_lba a * 512) with (512 * chs_lba a) by lia. reflexivity.
Qed.
(** Addresses that do not exist are refused. *)
Theorem read_refused a : reg 8 AH a = 2 -> reg 8 AL a mod 64 <> 0 ->
  reg 8 DL a <> 0 \/ CYLINDERS <= cx_cyl (reg 8 CH a) (reg 8 CL a) \/ HEADS <= reg 8 DH a \/ SECTORS < cx_sect (reg 8 CL a) ->
  hle13 GM fdd a = NRet (a_flags (put CF true (r_flags a)) (with_reg 8 AH 1 a)).
Proof.
  intros H2 Hc V. rewrite read_unfold by exact H2. replace (reg 8 AL a mod 64 =? 0) with false by lia.
  assert (X : read_chs GM fdd (reg 8 DL a) (cx_cyl (reg 8 CH a) (reg 8 CL a)) (reg 8 DH a) (cx_sect (reg 8 CL a)) (reg 8 AL a) (lin (r_es a) (reg 16 BX a)) a = Some (-1, a)).
  { unfold read_chs, disk_params. destruct (Z.eqb_spec (reg 8 DL a) 0); [|reflexivity]. destruct (Z.leb_spec 80 (cx_cyl (reg 8 CH a) (reg 8 CL a))); [reflexivity|].
    destruct (Z.leb_spec 2 (reg 8 DH a)); [reflexivity|]. destruct (Z.ltb_spec 18 (cx_sect (reg 8 CL a))); [reflexivity|]. unfold CYLINDERS, HEADS, SECTORS in V. lia. }
  rewrite X. cbn [Z.ltb Z.compare Z.opp]. rewrite set_cf. rewrite sAH by lia. reflexivity.
Qed.
(** The image ends before the last requested sector: CF, AL = whole sectors read. *)
Theorem read_short a len img : fdd = Some (len, img) -> 0 <= len -> wf_regs a ->
  reg 8 AH a = 2 -> reg 8 DL a = 0 -> chs_valid a -> reg 8 AL a mod 64 <> 0 ->
  let p := lin (r_es a) (reg 16 BX a) in let n := 512 * reg 8 AL a in let from := 512 * chs_lba a in
  len < from + n -> p + n <= 1114112 ->
  let got := Z.max 0 (len - from) in
  exists h, hle13 GM fdd a = NRet (a_flags (put CF true (r_flags a)) (with_reg 8 AL (got / 512) (a_hmem h a))) /\ (forall x, ~ guest GM p got x -> h x = hmem a x).
Proof.
  intros Hfd L0 W H2 H0 (V1 & V2 & V3) Hc. cbv zeta. intros Hlen Hbuf. destruct (cyl_range a) as (R1 & R2 & R3 & R4 & R5).
  assert (Hp : 0 <= lin (r_es a) (reg 16 BX a)). { pose proof (wf_es a W) as K. pose proof (reg16_range BX a ltac:(lia)). unfold inrange, lin in *. lia. }
  rewrite read_unfold by exact H2. replace (reg 8 AL a mod 64 =? 0) with false by lia. unfold read_chs. rewrite H0. unfold disk_params. cbn [Z.eqb].
  unfold CYLINDERS, HEADS, SECTORS in *. replace (80 <=? cx_cyl (reg 8 CH a) (reg 8 CL a)) with false by lia. replace (2 <=? reg 8 DH a) with false by lia. replace (18 <? cx_sect (reg 8 CL a)) with false by lia.
  unfold read_lba. cbn [Z.eqb]. rewrite Hfd. set (l := cx_cyl (reg 8 CH a) (reg 8 CL a) * 2 * 18 + reg 8 DH a * 18 + cx_sect (reg 8 CL a) - 1).
  assert (El : l = chs_lba a) by (unfold l, chs_lba, lba_of, HEADS, SECTORS; lia). rewrite El in *. clearbody l. assert (0 <= chs_lba a < 2880) as Rl by (unfold chs_lba, lba_of, HEADS, SECTORS; lia).
  replace ((chs_lba a * 512 <? -2147483648) || (2147483647 <? chs_lba a * 512)) with false by lia. replace (chs_lba a * 512 <? 0) with false by lia. cbv zeta.
  replace (Z.min (512 * reg 8 AL a) (Z.max 0 (len - chs_lba a * 512))) with (Z.max 0 (len - 512 * chs_lba a)) by lia.
  set (g := Z.max 0 (len - 512 * chs_lba a)) in *.
  destruct (gfill_some (lin (r_es a) (reg 16 BX a)) g (fun k => img (chs_lba a * 512 + k)) a) as (h & -> & Hh); [lia|lia|lia|].
  exists h. assert (0 <= g / 512 < reg 8 AL a) by lia. replace (g / 512 <? 0) with false by lia. rewrite bl_hmem. replace (g / 512 =? reg 8 AL a) with false by lia. cbn [negb].
  split. { rewrite set_cf. rewrite sAL by lia. reflexivity. }
  intros x Hx. rewrite Hh. unfold guest in Hx. replace ((GM + lin (r_es a) (reg 16 BX a) <=? x) && (x <? GM + lin (r_es a) (reg 16 BX a) + g)) with false by lia. reflexivity.
Qed.
(** A valid read into a buffer that runs past the end of guest memory writes outside gaMemory. *)
Theorem read_overflow a len img : fdd = Some (len, img) ->
  reg 8 AH a = 2 -> reg 8 DL a = 0 -> chs_valid a -> reg 8 AL a mod 64 <> 0 -> 512 * chs_lba a + 512 * reg 8 AL a <= len ->
  1114112 < lin (r_es a) (reg 16 BX a) + 512 * reg 8 AL a -> hle13 GM fdd a = NUB.
Proof.
  intros Hfd H2 H0 (V1 & V2 & V3) Hc Hlen Hbuf. destruct (cyl_range a) as (R1 & R2 & R3 & R4 & R5).
  rewrite read_unfold by exact H2. replace (reg 8 AL a mod 64 =? 0) with false by lia. unfold read_chs. rewrite H0. unfold disk_params. cbn [Z.eqb].
  unfold CYLINDERS, HEADS, SECTORS in *. replace (80 <=? cx_cyl (reg 8 CH a) (reg 8 CL a)) with false by lia. replace (2 <=? reg 8 DH a) with false by lia. replace (18 <? cx_sect (reg 8 CL a)) with false by lia.
  unfold read_lba. cbn [Z.eqb]. rewrite Hfd. set (l := cx_cyl (reg 8 CH a) (reg 8 CL a) * 2 * 18 + reg 8 DH a * 18 + cx_sect (reg 8 CL a) - 1).
  assert (El : l = chs_lba a) by (unfold l, chs_lba, lba_of, HEADS, SECTORS; lia). rewrite El in *. clearbody l. assert (0 <= chs_lba a < 2880) as Rl by (unfold chs_lba, lba_of, HEADS, SECTORS; lia).
  replace ((chs_lba a * 512 <? -2147483648) || (2147483647 <? chs_lba a * 512)) with false by lia. replace (chs_lba a * 512 <? 0) with false by lia. cbv zeta.
  replace (Z.min (512 * reg 8 AL a) (Z.max 0 (len - chs_lba a * 512))) with (512 * reg 8 AL a) by lia.
  rewrite gfill_none by lia. reflexivity.
Qed.
(** Sector number 0 does not exist, but on any but the very first track it is taken as the last
    sector of the track before. *)
Theorem read_sector0 E a len img : flat E GM a -> wf_regs a -> fdd = Some (len, img) -> image_ok (len, img) ->
  reg 8 AH a = 2 -> reg 8 DL a = 0 -> cx_cyl (reg 8 CH a) (reg 8 CL a) < CYLINDERS -> reg 8 DH a < HEADS -> cx_sect (reg 8 CL a) = 0 ->
  0 < chs_lba a -> reg 8 AL a mod 64 <> 0 ->
  let p := lin (r_es a) (reg 16 BX a) in let n := 512 * reg 8 AL a in let from := 512 * chs_lba a in
  from + n <= len -> p + n <= 1114112 ->
  exists h, hle13 GM fdd a = NRet (a_flags (put CF false (r_flags a)) (with_reg 8 AH 0 (a_hmem h a))) /\
    stored p n (fun k => img (from + k)) a (a_hmem h a).
Proof.
  intros F W Hfd (L0 & Hi) H2 H0 V1 V2 V3 Hpos Hc. cbv zeta. intros Hlen Hbuf. destruct (cyl_range a) as (R1 & R2 & R3 & R4 & R5). cbn [fst snd] in *.
  assert (Hp : 0 <= lin (r_es a) (reg 16 BX a)). { pose proof (wf_es a W) as K. pose proof (reg16_range BX a ltac:(lia)). unfold inrange, lin in *. lia. }
  rewrite read_unfold by exact H2. replace (reg 8 AL a mod 64 =? 0) with false by lia. unfold read_chs. rewrite H0. unfold disk_params. cbn [Z.eqb].
  unfold CYLINDERS, HEADS, SECTORS in *. replace (80 <=? cx_cyl (reg 8 CH a) (reg 8 CL a)) with false by lia. replace (2 <=? reg 8 DH a) with false by lia. replace (18 <? cx_sect (reg 8 CL a)) with false by lia.
  unfold read_lba. cbn [Z.eqb]. rewrite Hfd. set (l := cx_cyl (reg 8 CH a) (reg 8 CL a) * 2 * 18 + reg 8 DH a * 18 + cx_sect (reg 8 CL a) - 1).
  assert (El : l = chs_lba a) by (unfold l, chs_lba, lba_of, HEADS, SECTORS; lia). rewrite El in *. clearbody l. assert (chs_lba a < 2880) as Rl by (unfold chs_lba, lba_of, HEADS, SECTORS; lia).
  replace ((chs_lba a * 512 <? -2147483648) || (2147483647 <? chs_lba a * 512)) with false by lia. replace (chs_lba a * 512 <? 0) with false by lia. cbv zeta.
  replace (Z.min (512 * reg 8 AL a) (Z.max 0 (len - chs_lba a * 512))) with (512 * reg 8 AL a) by lia.
  destruct (gfill_some (lin (r_es a) (reg 16 BX a)) (512 * reg 8 AL a) (fun k => img (chs_lba a * 512 + k)) a) as (h & -> & Hh); [lia|lia|lia|].
  exists h. replace (512 * reg 8 AL a / 512) with (reg 8 AL a) by lia. replace (reg 8 AL a <? 0) with false by lia. rewrite bl_hmem, Z.eqb_refl. cbn [negb].
  split. { rewrite clr_cf. rewrite sAH by lia. reflexivity. }
  apply (fill_stored E (lin (r_es a) (reg 16 BX a)) (512 * reg 8 AL a) (fun k => img (512 * chs_lba a + k)) a h); try assumption; try lia.
  - intros k Hk. apply Hi. lia.
  - intros x. rewrite Hh. replace (chs_lba a * 512) with (512 * chs_lba a) by lia. reflexivity.
Qed.
(** Counts 64, 128, 192 are refused without a status code. *)
Theorem read_count64 a : reg 8 AH a = 2 -> reg 8 AL a mod 64 = 0 -> hle13 GM fdd a = NRet (a_flags (put CF true (r_flags a)) a).
Proof. intros H2 Hc. rewrite read_unfold by exact H2. rewrite Hc. reflexivity. Qed.
End Native.
