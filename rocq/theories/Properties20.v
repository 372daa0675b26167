(** Property theorems C71 (string instructions with prefix 67), and C39 for block port I/O. *)
From Verif Require Import Base Cpu Alu Ops Machine Spec SpecOps SpecOps2 SpecSys SpecStr SpecStr2 SpecRun SpecTop PBase PMem PRun PFrame PAlu PExec PStep PFlags PSmall PSmall2 PSmall3 PSmall4 PIAlu PIAlu2 PAlg PIMov PIStack PIJump PIInt PIStr PIStr2 PSmall6 PSmall7 PSmall8 Demo.

Definition a32 (rep : Z) : pfx := mkPfx None false true rep.
Definition f3 : pfx := mkPfx None false false 0xF3.

(** ** C39 for INS and OUTS with a repeat prefix. *)
Lemma poke_iolog n : forall x v g a, poke n x v (a_iolog g a) = a_iolog g (poke n x v a).
Proof. induction n as [|n IH]; intros x v g a; cbn [poke]; [reflexivity|]. apply (IH _ _ g (with_byte x (v mod 256) a)). Qed.
Lemma wmem_io w x v l a : with_mem w x v (a_iolog l a) = a_iolog l (with_mem w x v a).
Proof. unfold with_mem. apply poke_iolog. Qed.
Lemma values_length i w port h n : length (port_values i w port h n) = n.
Proof. induction n as [|n IH]; [reflexivity|]. cbn [port_values]. cbv zeta. rewrite app_length, IH. cbn. lia. Qed.
Lemma values_nth i w port h n k : (k < n)%nat -> nth k (port_values i w port h n) 0 = nth k (port_values i w port h (S k)) 0.
Proof.
  induction n as [|n IH]; intros Hk; [lia|]. destruct (Nat.eq_dec k n) as [->|]; [reflexivity|].
  rewrite <- IH by lia. cbn [port_values]. cbv zeta. rewrite app_nth1 by (rewrite values_length; lia). reflexivity.
Qed.
Section Ins.
Context (E : env) (base : Z) (i : list ioev -> Z -> Z -> Z).
Lemma elems_ins w sg si dg di d n a : flat E base a -> width w -> inrange 16 sg -> inrange 16 dg -> d = w / 8 \/ d = - (w / 8) ->
  let vs := port_values i w (reg 16 DX a) (iolog a) in
  exists m, elems i S_INS w sg si dg di d n a = a_iolog (iolog a ++ map (IoIn w (reg 16 DX a)) (vs n)) m /\ flat E base m /\ only_memory m a /\
    (Z.of_nat n * (w / 8) <= 65536 -> forall k, (k < n)%nat -> mem w m (lin dg (at_k di d k)) = nth k (vs n) 0) /\
    (forall x, 0 <= x < 1114112 -> (forall k, (k < n)%nat -> ~ lin dg (at_k di d k) <= x < lin dg (at_k di d k) + w / 8) -> byte m x = byte a x).
Proof.
  intros F Hw Hs Hd Hdd vs. induction n as [|n IH].
  - exists a. split; [cbn [elems vs port_values map]; rewrite app_nil_r; destruct a; reflexivity|]. split; [exact F|]. split; [apply only_memory_refl|]. split; [intros; lia|reflexivity].
  - destruct IH as (m & Hm & Fm & Om & Vm & Bm). cbn [elems elem]. rewrite Hm. cbv zeta.
    set (v := low w (i (iolog a ++ map (IoIn w (reg 16 DX a)) (vs n)) w (reg 16 DX a))).
    assert (Hdx : reg 16 DX m = reg 16 DX a) by (unfold reg, gpr; destruct Om as [Q]; cbn [a_hmem gprs] in Q; rewrite Q; reflexivity).
    assert (Hin : inmem w (lin dg (at_k di d n))) by (apply inmem_lin; auto using at_k_range).
    assert (Rv : inrange w v) by (apply low_range; auto).
    assert (Hvs : vs (S n) = vs n ++ [v]) by reflexivity.
    exists (with_mem w (lin dg (at_k di d n)) v m). split.
    { change (iolog (a_iolog ?l ?b)) with l. change (reg 16 DX (a_iolog ?l ?b)) with (reg 16 DX b). rewrite Hdx.
      change (a_iolog ?l1 (a_iolog ?l2 ?b)) with (a_iolog l1 b). rewrite wmem_io, Hvs, map_app, app_assoc. reflexivity. }
    split; [apply wmem_flat; auto|]. split; [apply only_memory_wmem, Om|]. split.
    + intros Hn k Hk. assert (Hn' : Z.of_nat n * (w / 8) <= 65536) by (assert (0 <= w / 8) by (apply Z.div_pos; [destruct Hw as [->|[->| ->]]|]; lia); nia).
      rewrite Hvs. destruct (Nat.eq_dec k n) as [->|Hkn].
      * rewrite (mem_same E base) by auto. rewrite app_nth2 by (unfold vs; rewrite values_length; lia). unfold vs. rewrite values_length, Nat.sub_diag. reflexivity.
      * rewrite app_nth1 by (unfold vs; rewrite values_length; lia).
        rewrite (mem_other E base); auto using inmem_lin, at_k_range; [apply (Vm Hn'); lia|].
        destruct (at_k_apart w di d k n (S n) Hw Hdd Hn ltac:(lia) ltac:(lia) Hkn); unfold lin; lia.
    + intros x Hx Hk. rewrite (byte_wmem E base) by auto. specialize (Hk n ltac:(lia)) as Hkn.
      destruct ((lin dg (at_k di d n) <=? x) && (x <? lin dg (at_k di d n) + w / 8)) eqn:B; [exfalso; apply Hkn; lia|]. apply Bm; auto.
Qed.
Lemma elems_outs w sg si dg di d n a : elems i S_OUTS w sg si dg di d n a = a_iolog (iolog a ++ map (fun k => IoOut w (reg 16 DX a) (mem w a (lin sg (at_k si d k)))) (seq 0 n)) a.
Proof.
  induction n as [|n IH]; [cbn [elems seq map]; rewrite app_nil_r; destruct a; reflexivity|].
  cbn [elems elem]. rewrite IH. rewrite mem_io. change (iolog (a_iolog ?l ?b)) with l. change (reg 16 DX (a_iolog ?l ?b)) with (reg 16 DX b).
  change (a_iolog ?l1 (a_iolog ?l2 ?b)) with (a_iolog l1 b). rewrite seq_S, map_app, app_assoc. reflexivity.
Qed.
End Ins.
(** REP INS: CX reads of port DX, one after the other; value k goes to element k. *)
Theorem C39_ins E base s pre p bs w : fetched E base s pre p bs -> decode_str p bs = Some (S_INS, w) -> p_rep p <> 0 ->
  let a := ar s in let n := reg 16 CX a in let vs := port_values (port_in E) w (reg 16 DX a) (iolog a) (Z.to_nat n) in
  exists m, executes E s (pre ++ bs) (with_reg 16 DI (moved w n (reg 16 DI a) a) (with_reg 16 CX 0 (a_iolog (iolog a ++ map (IoIn w (reg 16 DX a)) vs) m))) /\ only_memory m a /\
    (n * (w / 8) <= 65536 -> forall k, Z.of_nat k < n -> mem w m (dst_elem w a k) = nth k vs 0) /\
    (forall x, 0 <= x < 1114112 -> (forall k, Z.of_nat k < n -> ~ dst_elem w a k <= x < dst_elem w a k + w / 8) -> byte m x = byte a x).
Proof.
  intros Hf Hd Hr. cbv zeta. pose proof Hf as ([F W _ _] & Hpre & _). pose proof (prefixes_ok _ _ Hpre) as Hp.
  destruct (decode_str_ok _ _ _ _ Hd) as (_ & Hw & _).
  pose proof (reg_range 16 1 (ar s) ltac:(auto with width) ltac:(lia)) as Hc. unfold inrange in Hc.
  pose proof (str_rep_instr E base s pre p bs S_INS w Hf Hd Hr eq_refl) as X.
  unfold str_rep, advance, run_elems in X. cbn [uses_di uses_si] in X. rewrite Z2Nat.id, Z.sub_diag in X by lia. change (low 16 0) with 0 in X.
  rewrite <- moved_at in X by lia.
  destruct (elems_ins E base (port_in E) w (sreg (data_sreg p) (ar s)) (reg 16 SI (ar s)) (r_es (ar s)) (reg 16 DI (ar s)) (stride w (r_flags (ar s))) (Z.to_nat (reg 16 CX (ar s))) (ar s) F Hw ltac:(apply sreg_range, W) ltac:(apply W) (stride_or w _)) as (m & Hm & _ & Om & Vm & Bm).
  rewrite Hm in X. exists m. split; [exact X|]. split; [exact Om|]. split.
  - intros Hn k Hk. rewrite dst_at. apply Vm; lia.
  - intros x Hx Hk. apply Bm; [exact Hx|]. intros k Hkn. rewrite <- dst_at. apply Hk. lia.
Qed.
(** REP OUTS: CX writes to port DX, element k in the k-th; memory does not change. *)
Theorem C39_outs E base s pre p bs w : fetched E base s pre p bs -> decode_str p bs = Some (S_OUTS, w) -> p_rep p <> 0 ->
  let a := ar s in let n := reg 16 CX a in
  executes E s (pre ++ bs) (with_reg 16 SI (moved w n (reg 16 SI a) a) (with_reg 16 CX 0
    (a_iolog (iolog a ++ map (fun k => IoOut w (reg 16 DX a) (mem w a (src_elem (sreg (data_sreg p) a) w a k))) (seq 0 (Z.to_nat n))) a))).
Proof.
  intros Hf Hd Hr. cbv zeta. pose proof (reg_range 16 1 (ar s) ltac:(auto with width) ltac:(lia)) as Hc. unfold inrange in Hc.
  pose proof (str_rep_instr E base s pre p bs S_OUTS w Hf Hd Hr eq_refl) as X.
  unfold str_rep, advance, run_elems in X. cbn [uses_di uses_si] in X. rewrite Z2Nat.id, Z.sub_diag in X by lia. change (low 16 0) with 0 in X.
  rewrite <- moved_at, elems_outs in X by lia.
  replace (map _ (seq 0 _)) with (map (fun k => IoOut w (reg 16 DX (ar s)) (mem w (ar s) (lin (sreg (data_sreg p) (ar s)) (at_k (reg 16 6 (ar s)) (stride w (r_flags (ar s))) k)))) (seq 0 (Z.to_nat (reg 16 1 (ar s)))));
    [exact X|]. apply map_ext. intros k. rewrite src_at. reflexivity.
Qed.
(** REP INSW of 300 words; REP OUTSB of 5 bytes. *)
Example C39_io_case : (let s := demo [0; 300; 0x60; 0; 0; 0; 0; 0x10] 2 [] [0xF3; 0x6D] in
  fetched demo_env HB s [0xF3] f3 [0x6D] /\ decode_str f3 [0x6D] = Some (S_INS, 16) /\ p_rep f3 <> 0 /\ reg 16 CX (ar s) * (16 / 8) <= 65536) /\
  (let s := demo [0; 5; 0x60; 0; 0; 0; 0x20; 0] 2 [] [0xF3; 0x6E] in
   fetched demo_env HB s [0xF3] f3 [0x6E] /\ decode_str f3 [0x6E] = Some (S_OUTS, 8)).
Proof.
  cbv zeta. split; (split; [apply (demo_fetched demo_env _ 2 _ [0xF3]); reflexivity|]).
  - split; [reflexivity|]. split; [discriminate|]. vm_compute. discriminate.
  - reflexivity.
Qed.
Print Assumptions C39_ins. Print Assumptions C39_outs.

(** ** C71.  Partial: the count is CX, not ECX, so ECX must be below 64K. *)
Theorem C71_once E base s pre p bs o w : fetched E base s pre p bs -> decode_str67 p bs = Some (o, w) -> p_rep p = 0 -> within67 o w 1 (ar s) ->
  executes E s (pre ++ bs) (str_once67 (port_in E) p o w (ar s)).
Proof. apply str_once67_instr. Qed.
Theorem C71_rep_partial E base s pre p bs o w : fetched E base s pre p bs -> decode_str67 p bs = Some (o, w) -> p_rep p <> 0 -> o <> S_CMPS -> o <> S_SCAS ->
  reg 32 CX (ar s) < 65536 -> let n := Z.to_nat (reg 32 CX (ar s)) in within67 o w n (ar s) ->
  executes E s (pre ++ bs) (str_rep67 (port_in E) p o w n (ar s)).
Proof. intros Hf Hd Hr H1 H2. apply (str_rep67_instr E base); auto. destruct o; auto; contradiction. Qed.
Theorem C71_scan_partial E base s pre p bs o w : fetched E base s pre p bs -> decode_str67 p bs = Some (o, w) -> p_rep p <> 0 -> o = S_CMPS \/ o = S_SCAS ->
  reg 32 CX (ar s) < 65536 -> within67 o w (Z.to_nat (reg 32 CX (ar s))) (ar s) ->
  exists n, scan_stops67 p o w n (ar s) /\ executes E s (pre ++ bs) (str_rep67 (port_in E) p o w n (ar s)).
Proof. intros Hf Hd Hr H1. apply (str_scan67_instr E base); auto. destruct H1 as [->| ->]; reflexivity. Qed.
(** What happens without the two restrictions: the offset is taken modulo 64K in each access ([run_elems] addresses
    elements by SI and DI) while ESI and EDI advance as 32-bit registers, and CX counts. *)
Theorem C71_actual E base s pre p bs o w : fetched E base s pre p bs -> decode_str67 p bs = Some (o, w) -> p_rep p <> 0 -> o <> S_CMPS -> o <> S_SCAS ->
  let a := ar s in let n := Z.to_nat (reg 16 CX a) in
  executes E s (pre ++ bs) (advance67 o w n a (with_reg 16 CX 0 (run_elems (port_in E) p o w n a))).
Proof.
  intros Hf Hd Hr H1 H2. cbv zeta. pose proof (reg_range 16 1 (ar s) ltac:(auto with width) ltac:(lia)) as Hc. unfold inrange in Hc.
  destruct (str_rep_gen32 E base s pre p bs o w Hf Hd Hr) as (n & Hn & _ & Hs & Hx).
  destruct Hs as [Hs|(_ & j & _ & Hs)].
  - rewrite <- Hs, Nat2Z.id. rewrite <- Hs, Z.sub_diag in Hx. exact Hx.
  - unfold going in Hs. destruct o; try discriminate Hs; contradiction.
Qed.
(** REPNE SCASB with ECX = 10002h, the searched byte 0 at element 4: the manual's machine processes five elements;
    the emulator stops after two. *)
Theorem C71_count_refuted : let s := demo [0; 0x10002; 0; 0; 0; 0; 0; 0x10] 2 [(0x40010, 1); (0x40011, 1); (0x40012, 1); (0x40013, 1); (0x40014, 0)] [0x67; 0xF2; 0xAE] in
  fetched demo_env HB s [0x67; 0xF2] (a32 0xF2) [0xAE] /\ decode_str67 (a32 0xF2) [0xAE] = Some (S_SCAS, 8) /\
  within67 S_SCAS 8 5 (ar s) /\ scan_stops67 (a32 0xF2) S_SCAS 8 5 (ar s) /\
  reg 32 DI (str_rep67 (port_in demo_env) (a32 0xF2) S_SCAS 8 5 (ar s)) = 0x15 /\
  exists s', run_one demo_env s = Ok tt s' /\ reg 32 DI (ar s') = 0x12 /\ reg 32 CX (ar s') = 0x10000.
Proof.
  cbv zeta. split; [apply (demo_fetched demo_env _ 2 _ [0x67; 0xF2]); reflexivity|]. split; [reflexivity|]. split; [|split; [|split]].
  - intros k Hk. destruct k as [|[|[|[|[|k]]]]]; try lia; (split; [discriminate|intros _; vm_compute; reflexivity]).
  - split.
    + intros k Hk. destruct k as [|[|[|[|k]]]]; try lia; vm_compute; reflexivity.
    + right. split; [vm_compute; reflexivity|]. exists 4%nat. split; [reflexivity|]. vm_compute. discriminate.
  - vm_compute. reflexivity.
  - match goal with |- exists s', run_one _ ?S = _ /\ _ =>
      destruct (okb_ex (run_one demo_env S) (fun s' => (reg 32 DI (ar s') =? 0x12) && (reg 32 CX (ar s') =? 0x10000)) ltac:(vm_compute; reflexivity)) as (s' & H & H1) end.
    exists s'. split; [exact H|]. apply andb_true_iff in H1 as [H1 H2]. apply Z.eqb_eq in H1, H2. auto.
Qed.
(** REP MOVSD with 67: 40 doublewords from DS:0100 to ES:8000. *)
Example C71_case : let p := mkPfx None true true 0xF3 in let s := demo [0; 40; 0; 0; 0; 0; 0x100; 0x8000] 2 [] [0x67; 0x66; 0xF3; 0xA5] in
  fetched demo_env HB s [0x67; 0x66; 0xF3] p [0xA5] /\ decode_str67 p [0xA5] = Some (S_MOVS, 32) /\ reg 32 CX (ar s) < 65536 /\ within67 S_MOVS 32 40 (ar s).
Proof.
  cbv zeta. split; [apply (demo_fetched demo_env _ 2 _ [0x67; 0x66; 0xF3]); reflexivity|]. split; [reflexivity|]. split; [vm_compute; reflexivity|].
  intros k Hk.
  change (stride 32 (r_flags _)) with 4.
  change (reg 32 6 (ar (demo [0; 40; 0; 0; 0; 0; 0x100; 0x8000] 2 [] [0x67; 0x66; 0xF3; 0xA5]))) with 0x100.
  change (reg 32 7 (ar (demo [0; 40; 0; 0; 0; 0; 0x100; 0x8000] 2 [] [0x67; 0x66; 0xF3; 0xA5]))) with 0x8000.
  unfold at32, low. change (2 ^ 32) with 4294967296. rewrite !Z.mod_small by lia. lia.
Qed.
Print Assumptions C71_once. Print Assumptions C71_rep_partial. Print Assumptions C71_scan_partial. Print Assumptions C71_actual. Print Assumptions C71_count_refuted.
