(** Property theorems C23-C25: rotates, shifts, double-precision shifts. *)
From Verif Require Import Base Cpu Alu Ops Machine Spec SpecOps SpecDbl SpecTop PBase PMem PRun PFrame PAlu PExec PShift PStep PIUn PIDbl PFlags PSmall3 PSmall4 Demo.

Ltac shprop := intros Hf Hd Ho; cbv zeta; intros Hn Hm; destruct (decode_shift_ok _ _ _ _ _ _ _ _ _ _ Hf Hd Ho) as (Hw & Hr & H8 & Hv);
  pose proof (width_pos _ Hw).
Ltac witness t := match goal with |- exists s', ?r = _ /\ _ => destruct (okb_ex r t) as (s' & H1 & H2); [vm_compute; reflexivity|]; exists s'; split; [exact H1|] end.

(** ** C23.  [decode_shift] (SpecOps.v): operation 0 ROL, 1 ROR, 2 RCL, 3 RCR, 4 and 6 SHL, 5 SHR, 7 SAR. *)
Theorem C23_zero_count E base s pre p bs op w r cnt :
  fetched E base s pre p bs -> decode_shift p (ar s) bs = Some (op, w, r, cnt) -> operand_ok p (ar s) bs ->
  cnt mod 32 = 0 -> executes E s (pre ++ bs) (ar s).
Proof. exact (shift_zero E base s pre p bs op w r cnt). Qed.
(** ROL and ROR, except by a non-zero multiple of the width. *)
Theorem C23_rol_partial E base s pre p bs w r cnt :
  fetched E base s pre p bs -> decode_shift p (ar s) bs = Some (0, w, r, cnt) -> operand_ok p (ar s) bs ->
  let n := cnt mod 32 in n <> 0 -> n mod w <> 0 ->
  exists v f', rotated_left w n (rd_rm w r (ar s)) v /\ flag CF f' = Z.testbit v 0 /\
    (n = 1 -> flag OF f' = xorb (Z.testbit v (w - 1)) (flag CF f')) /\ other_flags [CF; OF] (r_flags (ar s)) f' /\
    executes E s (pre ++ bs) (wr_rm w r v (a_flags f' (ar s))).
Proof.
  shprop. destruct (shift_some _ _ _ _ _ _ _ _ _ _ Hf Hd Ho (fun _ => Hm) Hn) as (o & v & c & Hi & Hvr & Hof & X).
  exists v. eexists. pose proof Hi as Hi'. rewrite shiftn_rol in Hi' by auto.
  assert (A : Nat.iter (Z.to_nat (cnt mod 32)) (rolW w) (rd_rm w r (ar s)) = v) by congruence.
  assert (B : c = Z.testbit v 0). { destruct (Z.to_nat (cnt mod 32)) eqn:Hk; [lia|]. congruence. }
  destruct (rol_iter w (Z.to_nat (cnt mod 32)) (rd_rm w r (ar s)) ltac:(lia) Hv) as [Q1 Q2]. rewrite A, Z2Nat.id in * by lia.
  destruct (rot_put c o (r_flags (ar s))) as (F1 & F2 & F3).
  split; [split; assumption|]. split; [rewrite <- B; exact F1|]. split; [|split; [exact F3|exact X]].
  intros H1'. rewrite F1, F2, (Hof H1'). cbn [shift_of]. rewrite top_bit by auto. reflexivity.
Qed.
Theorem C23_ror_partial E base s pre p bs w r cnt :
  fetched E base s pre p bs -> decode_shift p (ar s) bs = Some (1, w, r, cnt) -> operand_ok p (ar s) bs ->
  let n := cnt mod 32 in n <> 0 -> n mod w <> 0 ->
  exists v f', rotated_right w n (rd_rm w r (ar s)) v /\ flag CF f' = Z.testbit v (w - 1) /\
    (n = 1 -> flag OF f' = xorb (Z.testbit v (w - 1)) (Z.testbit v (w - 2))) /\ other_flags [CF; OF] (r_flags (ar s)) f' /\
    executes E s (pre ++ bs) (wr_rm w r v (a_flags f' (ar s))).
Proof.
  shprop. destruct (shift_some _ _ _ _ _ _ _ _ _ _ Hf Hd Ho (fun _ => Hm) Hn) as (o & v & c & Hi & Hvr & Hof & X).
  exists v. eexists. pose proof Hi as Hi'. rewrite shiftn_ror in Hi' by auto.
  assert (A : Nat.iter (Z.to_nat (cnt mod 32)) (rorW w) (rd_rm w r (ar s)) = v) by congruence.
  assert (B : c = Z.testbit v (w - 1)). { destruct (Z.to_nat (cnt mod 32)) eqn:Hk; [lia|]. congruence. }
  destruct (ror_iter w (Z.to_nat (cnt mod 32)) (rd_rm w r (ar s)) ltac:(lia) Hv) as [Q1 Q2]. rewrite A, Z2Nat.id in * by lia.
  destruct (rot_put c o (r_flags (ar s))) as (F1 & F2 & F3).
  split; [split; assumption|]. split; [rewrite <- B; exact F1|]. split; [|split; [exact F3|exact X]].
  intros H1'. rewrite F2, (Hof H1'). cbn [shift_of]. rewrite top_bit by auto. reflexivity.
Qed.
(** By a non-zero multiple of the width they do nothing, although CF should become the low (high) bit. *)
Theorem C23_full_turn_partial E base s pre p bs op w r cnt :
  fetched E base s pre p bs -> decode_shift p (ar s) bs = Some (op, w, r, cnt) -> operand_ok p (ar s) bs ->
  op = 0 \/ op = 1 -> (cnt mod 32) mod w = 0 -> executes E s (pre ++ bs) (ar s).
Proof. exact (rotate_full_instr E base s pre p bs op w r cnt). Qed.
Theorem C23_rcl E base s pre p bs w r cnt :
  fetched E base s pre p bs -> decode_shift p (ar s) bs = Some (2, w, r, cnt) -> operand_ok p (ar s) bs ->
  let n := cnt mod 32 in n <> 0 ->
  exists v c f', rotated_left (w + 1) n (with_carry w (rd_rm w r (ar s)) (flag CF (r_flags (ar s)))) (with_carry w v c) /\ 0 <= v < 2 ^ w /\
    flag CF f' = c /\ (n = 1 -> flag OF f' = xorb (Z.testbit v (w - 1)) c) /\ other_flags [CF; OF] (r_flags (ar s)) f' /\
    executes E s (pre ++ bs) (wr_rm w r v (a_flags f' (ar s))).
Proof.
  intros Hf Hd Ho n Hn. subst n. destruct (decode_shift_ok _ _ _ _ _ _ _ _ _ _ Hf Hd Ho) as (Hw & Hr & H8 & Hv).
  destruct (shift_some _ _ _ _ _ _ _ _ _ _ Hf Hd Ho I Hn) as (o & v & c & Hi & Hvr & Hof & X).
  exists v, c. eexists. destruct (rot_put c o (r_flags (ar s))) as (F1 & F2 & F3).
  split; [apply rcl_bits; auto; lia|]. split; [exact Hvr|]. split; [exact F1|]. split; [|split; [exact F3|exact X]].
  intros H1'. rewrite F2, (Hof H1'). cbn [shift_of]. rewrite top_bit by auto. reflexivity.
Qed.
Theorem C23_rcr E base s pre p bs w r cnt :
  fetched E base s pre p bs -> decode_shift p (ar s) bs = Some (3, w, r, cnt) -> operand_ok p (ar s) bs ->
  let n := cnt mod 32 in n <> 0 ->
  exists v c f', rotated_right (w + 1) n (with_carry w (rd_rm w r (ar s)) (flag CF (r_flags (ar s)))) (with_carry w v c) /\ 0 <= v < 2 ^ w /\
    flag CF f' = c /\ (n = 1 -> flag OF f' = xorb (Z.testbit (rd_rm w r (ar s)) (w - 1)) (flag CF (r_flags (ar s)))) /\
    other_flags [CF; OF] (r_flags (ar s)) f' /\
    executes E s (pre ++ bs) (wr_rm w r v (a_flags f' (ar s))).
Proof.
  intros Hf Hd Ho n Hn. subst n. destruct (decode_shift_ok _ _ _ _ _ _ _ _ _ _ Hf Hd Ho) as (Hw & Hr & H8 & Hv).
  destruct (shift_some _ _ _ _ _ _ _ _ _ _ Hf Hd Ho I Hn) as (o & v & c & Hi & Hvr & Hof & X).
  exists v, c. eexists. destruct (rot_put c o (r_flags (ar s))) as (F1 & F2 & F3).
  split; [apply rcr_bits; auto; lia|]. split; [exact Hvr|]. split; [exact F1|]. split; [|split; [exact F3|exact X]].
  intros H1'. rewrite F2, (Hof H1'). cbn [shift_of]. rewrite top_bit by auto. reflexivity.
Qed.
(** ROL AL,8 with AL = 1: CF stays clear, although a 1 is rotated out in the last step. *)
Definition np : pfx := mkPfx None false false 0.
Theorem C23_full_turn_refuted : let s := demo [1] 2 [] [0xC0; 0xC0; 0x08] in
  decode_shift np (ar s) [0xC0; 0xC0; 0x08] = Some (0, 8, RReg 0, 8) /\ snd (Nat.iter 8 (shift1 0 8) (1, false)) = true /\
  exists s', run_one demo_env s = Ok tt s' /\ flag CF (r_flags (ar s')) = false.
Proof.
  cbv zeta. split; [vm_compute; reflexivity|]. split; [reflexivity|].
  witness (fun s => negb (flag CF (r_flags (ar s)))). apply negb_true_iff, H2.
Qed.
Ltac regform := split; [intros H; exfalso; apply H; reflexivity|intros; first [exact I|discriminate]].
Example C23_case : let bs := [0xD1; 0xDA] in let s := demo [0; 0; 0x8001] 3 [] bs in
  fetched demo_env HB s [] np bs /\ decode_shift np (ar s) bs = Some (3, 16, RReg 2, 1) /\ operand_ok np (ar s) bs.
Proof. cbv zeta. split; [apply (demo_fetched demo_env _ 3 _ []); reflexivity|]. split; [vm_compute; reflexivity|]. regform. Qed.
Example C23_case2 : let bs := [0xD2; 0xC4] in let s := demo [0x8100; 0x25] 3 [] bs in
  fetched demo_env HB s [] np bs /\ decode_shift np (ar s) bs = Some (0, 8, RReg 4, 0x25) /\ operand_ok np (ar s) bs /\ 0x25 mod 32 <> 0 /\ (0x25 mod 32) mod 8 <> 0.
Proof. cbv zeta. split; [apply (demo_fetched demo_env _ 3 _ []); reflexivity|]. split; [vm_compute; reflexivity|]. split; [regform|]. split; vm_compute; congruence. Qed.
Print Assumptions C23_zero_count. Print Assumptions C23_rol_partial. Print Assumptions C23_ror_partial. Print Assumptions C23_full_turn_partial.
Print Assumptions C23_rcl. Print Assumptions C23_rcr. Print Assumptions C23_full_turn_refuted.

(** ** C24.  (A zero count is C23_zero_count.) *)
Theorem C24_zero_count E base s pre p bs op w r cnt :
  fetched E base s pre p bs -> decode_shift p (ar s) bs = Some (op, w, r, cnt) -> operand_ok p (ar s) bs ->
  cnt mod 32 = 0 -> executes E s (pre ++ bs) (ar s).
Proof. exact (shift_zero E base s pre p bs op w r cnt). Qed.
Definition shift_flags (w v : Z) (c : bool) (f f' : Z) : Prop :=
  flag CF f' = c /\ result_flags w v f' /\ other_flags [CF; PF; ZF; SF; OF] f f'.
(** SHL (4 and its alias 6), except by exactly the width. *)
Theorem C24_shl_partial E base s pre p bs op w r cnt :
  fetched E base s pre p bs -> decode_shift p (ar s) bs = Some (op, w, r, cnt) -> operand_ok p (ar s) bs -> op = 4 \/ op = 6 ->
  let n := cnt mod 32 in let d := rd_rm w r (ar s) in let v := (d * 2 ^ n) mod 2 ^ w in n <> 0 -> n <> w ->
  exists f', shift_flags w v (Z.testbit d (w - n)) (r_flags (ar s)) f' /\
    (n = 1 -> flag OF f' = xorb (Z.testbit v (w - 1)) (flag CF f')) /\
    executes E s (pre ++ bs) (wr_rm w r v (a_flags f' (ar s))).
Proof.
  intros Hf Hd Ho Hop. cbv zeta. intros Hn Hm. destruct (decode_shift_ok _ _ _ _ _ _ _ _ _ _ Hf Hd Ho) as (Hw & Hr & H8 & Hv).
  pose proof (width_pos _ Hw).
  assert (Hc : shift_count_ok op w cnt) by (destruct Hop as [-> | ->]; exact Hm).
  destruct (shift_some _ _ _ _ _ _ _ _ _ _ Hf Hd Ho Hc Hn) as (o & v & c & Hi & Hvr & Hof & X).
  replace (Nat.iter (Z.to_nat (cnt mod 32)) (shift1 op w) (rd_rm w r (ar s), flag CF (r_flags (ar s)))) with
    (Nat.iter (Z.to_nat (cnt mod 32)) (shift1 4 w) (rd_rm w r (ar s), flag CF (r_flags (ar s)))) in Hi by (destruct Hop as [-> | ->]; reflexivity).
  rewrite shiftn_shl in Hi by auto. rewrite Z2Nat.id in Hi by lia.
  assert (A : v = (rd_rm w r (ar s) * 2 ^ (cnt mod 32)) mod 2 ^ w) by (unfold low in Hi; congruence).
  assert (B : c = Z.testbit (rd_rm w r (ar s)) (w - cnt mod 32)). { destruct (Z.to_nat (cnt mod 32)) eqn:Hk; [lia|]. congruence. }
  rewrite <- A, <- B. replace (op <? 4) with false in X by lia. eexists. destruct (shf_put w v c o (r_flags (ar s)) ltac:(lia) Hvr) as (F1 & F2 & F3 & F4).
  split; [split; [exact F1|split; [exact F3|exact F4]]|]. split; [|exact X].
  intros H1'. rewrite F1, F2, (Hof H1'). destruct Hop as [-> | ->]; cbn [shift_of]; rewrite top_bit by auto; reflexivity.
Qed.
Theorem C24_shr E base s pre p bs w r cnt :
  fetched E base s pre p bs -> decode_shift p (ar s) bs = Some (5, w, r, cnt) -> operand_ok p (ar s) bs ->
  let n := cnt mod 32 in let d := rd_rm w r (ar s) in let v := d / 2 ^ n in n <> 0 ->
  exists f', shift_flags w v (Z.testbit d (n - 1)) (r_flags (ar s)) f' /\
    (n = 1 -> flag OF f' = Z.testbit d (w - 1)) /\
    executes E s (pre ++ bs) (wr_rm w r v (a_flags f' (ar s))).
Proof.
  intros Hf Hd Ho. cbv zeta. intros Hn. destruct (decode_shift_ok _ _ _ _ _ _ _ _ _ _ Hf Hd Ho) as (Hw & Hr & H8 & Hv).
  pose proof (width_pos _ Hw).
  destruct (shift_some _ _ _ _ _ _ _ _ _ _ Hf Hd Ho I Hn) as (o & v & c & Hi & Hvr & Hof & X).
  rewrite shiftn_shr in Hi by auto. rewrite Z2Nat.id in Hi by lia.
  assert (A : v = rd_rm w r (ar s) / 2 ^ (cnt mod 32)) by congruence.
  assert (B : c = Z.testbit (rd_rm w r (ar s)) (cnt mod 32 - 1)). { destruct (Z.to_nat (cnt mod 32)) eqn:Hk; [lia|]. congruence. }
  rewrite <- A, <- B. eexists. destruct (shf_put w v c o (r_flags (ar s)) ltac:(lia) Hvr) as (F1 & F2 & F3 & F4).
  split; [split; [exact F1|split; [exact F3|exact F4]]|]. split; [|exact X].
  intros H1'. rewrite F2, (Hof H1'). cbn [shift_of]. rewrite top_bit by auto. reflexivity.
Qed.
Theorem C24_sar E base s pre p bs w r cnt :
  fetched E base s pre p bs -> decode_shift p (ar s) bs = Some (7, w, r, cnt) -> operand_ok p (ar s) bs ->
  let n := cnt mod 32 in let d := signed w (rd_rm w r (ar s)) in let v := (d / 2 ^ n) mod 2 ^ w in n <> 0 ->
  exists f', shift_flags w v (Z.testbit d (n - 1)) (r_flags (ar s)) f' /\
    (n = 1 -> flag OF f' = false) /\
    executes E s (pre ++ bs) (wr_rm w r v (a_flags f' (ar s))).
Proof.
  intros Hf Hd Ho. cbv zeta. intros Hn. destruct (decode_shift_ok _ _ _ _ _ _ _ _ _ _ Hf Hd Ho) as (Hw & Hr & H8 & Hv).
  pose proof (width_pos _ Hw).
  destruct (shift_some _ _ _ _ _ _ _ _ _ _ Hf Hd Ho I Hn) as (o & v & c & Hi & Hvr & Hof & X).
  rewrite shiftn_sar in Hi by auto. rewrite Z2Nat.id in Hi by lia.
  assert (A : v = (signed w (rd_rm w r (ar s)) / 2 ^ (cnt mod 32)) mod 2 ^ w) by (unfold low in Hi; congruence).
  assert (B : c = Z.testbit (signed w (rd_rm w r (ar s))) (cnt mod 32 - 1)). { destruct (Z.to_nat (cnt mod 32)) eqn:Hk; [lia|]. congruence. }
  rewrite <- A, <- B. eexists. destruct (shf_put w v c o (r_flags (ar s)) ltac:(lia) Hvr) as (F1 & F2 & F3 & F4).
  split; [split; [exact F1|split; [exact F3|exact F4]]|]. split; [|exact X].
  intros H1'. rewrite F2, (Hof H1'). reflexivity.
Qed.
(** SHL by exactly the operand width is undefined behaviour in the C code, for every operand. *)
Theorem C24_shl_width_refuted E base s pre p bs op w r cnt :
  fetched E base s pre p bs -> decode_shift p (ar s) bs = Some (op, w, r, cnt) -> operand_ok p (ar s) bs ->
  op = 4 \/ op = 6 -> cnt mod 32 = w -> run_one E s = UB UbShift.
Proof. exact (shl_width_instr E base s pre p bs op w r cnt). Qed.
Example C24_case : let bs := [0xC1; 0xF8; 0x05] in let s := demo [0x8765] 3 [] bs in
  fetched demo_env HB s [] np bs /\ decode_shift np (ar s) bs = Some (7, 16, RReg 0, 5) /\ operand_ok np (ar s) bs.
Proof. cbv zeta. split; [apply (demo_fetched demo_env _ 3 _ []); reflexivity|]. split; [vm_compute; reflexivity|]. regform. Qed.
Example C24_case2 : let bs := [0xC0; 0xE3; 0x08] in let s := demo [0x8765] 3 [] bs in
  fetched demo_env HB s [] np bs /\ decode_shift np (ar s) bs = Some (4, 8, RReg 3, 8) /\ operand_ok np (ar s) bs /\ 8 mod 32 = 8.
Proof. cbv zeta. split; [apply (demo_fetched demo_env _ 3 _ []); reflexivity|]. split; [vm_compute; reflexivity|]. split; [regform|reflexivity]. Qed.
Print Assumptions C24_zero_count. Print Assumptions C24_shl_partial. Print Assumptions C24_shr. Print Assumptions C24_sar. Print Assumptions C24_shl_width_refuted.

(** ** C25.  Right for AX..BX (or memory) and a source among AX..BX other than the destination,
    and counts up to the width (below 32). *)
Theorem C25_shld_partial E base s pre p bs w r src n :
  fetched E base s pre p bs -> decode_dbl p (ar s) bs = Some (true, w, r, src, n) -> operand_ok p (ar s) bs -> dbl_supported w r src n ->
  let d := rd_rm w r (ar s) in let v := ((d * 2 ^ w + reg w src (ar s)) * 2 ^ n / 2 ^ w) mod 2 ^ w in
  exists f', (n = 0 -> f' = r_flags (ar s)) /\ 
    (n <> 0 -> flag CF f' = Z.testbit d (w - n) /\ result_flags w v f' /\ (n = 1 -> flag OF f' = xorb (Z.testbit d (w - 1)) (Z.testbit v (w - 1))) /\
       other_flags [CF; PF; AF; ZF; SF; OF] (r_flags (ar s)) f') /\
    executes E s (pre ++ bs) (wr_rm w r v (a_flags f' (ar s))).
Proof. exact (dbl_prop E base s pre p bs true w r src n). Qed.
Theorem C25_shrd_partial E base s pre p bs w r src n :
  fetched E base s pre p bs -> decode_dbl p (ar s) bs = Some (false, w, r, src, n) -> operand_ok p (ar s) bs -> dbl_supported w r src n ->
  let d := rd_rm w r (ar s) in let v := ((reg w src (ar s) * 2 ^ w + d) / 2 ^ n) mod 2 ^ w in
  exists f', (n = 0 -> f' = r_flags (ar s)) /\ 
    (n <> 0 -> flag CF f' = Z.testbit d (n - 1) /\ result_flags w v f' /\ (n = 1 -> flag OF f' = xorb (Z.testbit d (w - 1)) (Z.testbit v (w - 1))) /\
       other_flags [CF; PF; AF; ZF; SF; OF] (r_flags (ar s)) f') /\
    executes E s (pre ++ bs) (wr_rm w r v (a_flags f' (ar s))).
Proof. exact (dbl_prop E base s pre p bs false w r src n). Qed.
(** SHLD SP,BX,4 shifts AH instead; SHLD AX,BX,40 (= 8 modulo 32) is an out-of-range shift in C. *)
Theorem C25_register_refuted : let s := demo [0x1234; 0; 0; 0xF000; 0x5678] 2 [] [0x0F; 0xA4; 0xDC; 0x04] in
  decode_dbl np (ar s) [0x0F; 0xA4; 0xDC; 0x04] = Some (true, 16, RReg 4, 3, 4) /\
  exists s', run_one demo_env s = Ok tt s' /\ reg 16 4 (ar s') = 0x5678 /\ reg 16 0 (ar s') <> 0x1234.
Proof.
  cbv zeta. split; [vm_compute; reflexivity|].
  witness (fun s => (reg 16 4 (ar s) =? 0x5678) && negb (reg 16 0 (ar s) =? 0x1234)). lia.
Qed.
Theorem C25_count_refuted : let s := demo [0x1234; 0; 0; 0xF000; 0x5678] 2 [] [0x0F; 0xA4; 0xD8; 0x28] in
  decode_dbl np (ar s) [0x0F; 0xA4; 0xD8; 0x28] = Some (true, 16, RReg 0, 3, 40) /\ run_one demo_env s = UB UbShift.
Proof. cbv zeta. split; [vm_compute; reflexivity|]. apply is_ub_eq. vm_compute. reflexivity. Qed.
Example C25_case : let bs := [0x0F; 0xAC; 0xD8; 0x04] in let s := demo [0x1234; 0; 0; 0xFFFF] 2 [] bs in
  fetched demo_env HB s [] np bs /\ decode_dbl np (ar s) bs = Some (false, 16, RReg 0, 3, 4) /\ operand_ok np (ar s) bs /\ dbl_supported 16 (RReg 0) 3 4.
Proof. cbv zeta. split; [apply (demo_fetched demo_env _ 2 _ []); reflexivity|]. split; [vm_compute; reflexivity|]. split; [regform|]. repeat split; lia. Qed.
Print Assumptions C25_shld_partial. Print Assumptions C25_shrd_partial. Print Assumptions C25_register_refuted. Print Assumptions C25_count_refuted.
