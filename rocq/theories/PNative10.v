(** Start-up of a DOS executable and of a BIOS image, the main loop's exit code, and the 00 00 history. *)
From Coq Require Import String.
From Verif Require Import Base Cpu Ops Machine Spec SpecOps SpecOps2 SpecRun SpecTop SpecSys SpecCodes Native SpecNative Native2 SpecNative2 PBase PMem PRun PExec PTop PTop2 PTop3 PSmall PNative4 PNative8 PCodes SpecStop PStop.
Local Open Scope Z_scope.

(** ** DOS executables *)
Lemma exe_loaded_byte len f m m' : bytes f -> bytes m -> (forall k, 0 <= k < exe_size f -> m' (0x1000 + k) = exe_byte f k) -> (forall y, ~ 0x1000 <= y < 0x1000 + exe_size f -> m' y = m y) -> 0 <= len -> bytes m'.
Proof.
  intros B Bm H1 H2 _ y. destruct (Z_le_dec 0x1000 y); [destruct (Z_lt_dec y (0x1000 + exe_size f))|].
  - replace y with (0x1000 + (y - 0x1000)) by lia. rewrite H1 by lia. unfold exe_byte. apply Z.mod_pos_bound. lia.
  - rewrite H2 by lia. apply Bm.
  - rewrite H2 by lia. apply Bm.
Qed.
Lemma last_word_byte m : bytes m -> bytes (last_word m).
Proof. intros H y. unfold last_word. revert y. apply mput_all; [intros b [<-|[<-|[]]]; lia|exact H]. Qed.
Lemma last_word_out m y : ~ 0x9FFFE <= y < 0xA0000 -> last_word m y = m y.
Proof. intros H. unfold last_word. apply mput_out. cbn [length]. lia. Qed.
Theorem exe_boot GM fdd gui nullc debug cp len f : 0 <= GM -> (nullc = true -> GM <> 0) -> exe_ok len f -> exe_size f <= 0x9EFFE ->
  let cs := (0x100 + exe_cs f) mod 65536 in cs <> 0 \/ exe_ip f <> 0 ->
  exists s, nt_boot_exe GM debug cp (Some (len, f)) = BRun s /\ flat (nt_env GM fdd gui nullc) GM (ar s) /\ wf_state s /\ host_ok GM (ar s) /\ hle (ar s) = nt_hle /\
    r_cs (ar s) = cs /\ r_ip (ar s) = exe_ip f /\ r_ss (ar s) = (0x100 + exe_ss f) mod 65536 /\ cpu (ar s) = cp /\ r_ds (ar s) = 0 /\ r_es (ar s) = 0 /\
    (forall n, 0 <= n < 8 -> reg 16 n (ar s) = if n =? SP then 0xFFFE else 0) /\
    (forall k, 0 <= k < exe_size f -> byte (ar s) (0x1000 + k) = exe_byte f k) /\
    (forall n, 0 <= n < 256 -> vector n (ar s) = (0xB800, n)).
Proof.
  intros HG HN Hok Hs. cbv zeta. intros Hcs. destruct (exe_load len f bios_memory Hok ltac:(lia)) as (m & E & K1 & K2).
  assert (B : bytes f) by apply Hok. pose proof (eo_size _ _ Hok). pose proof (eo_head _ _ Hok).
  assert (Bm : bytes (last_word m)). { apply last_word_byte. apply (exe_loaded_byte len f bios_memory m B bios_byte K1 K2). lia. }
  unfold nt_boot_exe. rewrite E. replace (_ && _) with false by lia. eexists. split; [reflexivity|].
  pose proof (hdr_range f 20 B). pose proof (hdr_range f 22 B). pose proof (hdr_range f 14 B).
  split; [apply nt_flat; assumption|]. split; [apply nt_wf_state; try assumption; unfold exe_ip; lia|]. split; [apply nt_host_ok, Bm|]. split; [reflexivity|].
  split; [reflexivity|]. split; [reflexivity|]. split; [reflexivity|]. split; [reflexivity|]. split; [reflexivity|]. split; [reflexivity|]. split; [intros; apply nt_reg; assumption|]. split.
  - intros k Hk. rewrite nt_byte by lia. rewrite last_word_out by lia. apply K1, Hk.
  - intros n Hn. apply (vec_of _ (last_word m)); [intros; apply nt_byte; lia| |exact Hn]. intros i Hi. rewrite last_word_out by lia. rewrite K2 by lia. apply bios_ivt; lia.
Qed.

(** ** The main loop *)
Theorem main_exit E fuel s code s' : main_loop E fuel s = MExit code s' <->
  exists n s1 c, (n < fuel)%nat /\ runs E n s s1 /\ run_one E s1 = Err c s' /\ code = exit_code c.
Proof.
  revert s. induction fuel as [|k IH]; intros s; cbn [main_loop].
  - split; [discriminate|]. intros (n & _ & _ & H & _). lia.
  - split.
    + destruct (run_one E s) as [[] s1|c s1|r|] eqn:Hr; try discriminate.
      * intros H. apply IH in H. destruct H as (n & s2 & c & Hn & Hs & He & ->). exists (S n), s2, c. split; [lia|]. split; [econstructor; eassumption|]. auto.
      * intros [= <- <-]. exists O, s, c. split; [lia|]. split; [constructor|]. auto.
    + intros (n & s2 & c & Hn & Hs & He & ->). destruct Hs as [s|n s s1 s2 Hr Hs].
      * rewrite He. reflexivity.
      * rewrite Hr. apply IH. exists n, s2, c. split; [lia|]. auto.
Qed.
Theorem main_running E fuel s : main_loop E fuel s = MRunning -> (forall s1, run_one E s1 <> Fuel) -> exists s1, runs E fuel s s1.
Proof.
  revert s. induction fuel as [|k IH]; intros s; cbn [main_loop]; [exists s; constructor|].
  intros H Hf. specialize (Hf s) as Hs. destruct (run_one E s) as [[] s1|c s1|r|] eqn:Hr; try discriminate; [|congruence].
  destruct (IH _ H Hf) as [s2 H2]. exists s2. econstructor; eassumption.
Qed.

(** ** BIOS images *)
Definition mini_image (len : Z) (f : Z -> Z) : Z -> Z := fun y => if (0x100000 - len <=? y) && (y <? 0x100000) then f (y - (0x100000 - len)) else mfill 0 0x400 0 mini_bios y.
Lemma mini_bios_byte : bytes mini_bios.
Proof. intros y. unfold mini_bios. apply ivt_byte; [lia|]. apply mput_all; [intros b [<-|[<-|[]]]; lia|]. intros; lia. Qed.
Lemma mini_bios_fill y : 0x400 <= y < 0xF0000 -> mini_bios y = 0xF1.
Proof. intros H. unfold mini_bios. rewrite ivt_out by lia. rewrite mput_out by (cbn [length]; lia). reflexivity. Qed.
Lemma mini_bios_high y : 0xF0002 <= y -> mini_bios y = 0xF1.
Proof. intros H. unfold mini_bios. rewrite ivt_out by lia. rewrite mput_out by (cbn [length]; lia). reflexivity. Qed.
Lemma mfill_byte x n v m : bytes m -> 0 <= v < 256 -> bytes (mfill x n v m).
Proof. intros H Hv y. unfold mfill. destruct (_ && _); [exact Hv|apply H]. Qed.
Section Mini.
Context (GM : Z).
Lemma mini_byte debug cp m x : 0 <= x < 1114112 -> byte (ar (mini_state GM debug cp m)) x = m x.
Proof.
  intros H. unfold byte, host. cbn [mini_state ar hmem mtab]. unfold mini_host, GSIZE.
  replace (GM + 4096 * (x / 4096) + x mod 4096) with (GM + x) by lia. replace ((GM <=? GM + x) && (GM + x <? GM + 1114112)) with true by lia. f_equal. lia.
Qed.
Lemma mini_flat E debug cp m : 0 <= GM -> (null_check E = true -> GM <> 0) -> bytes m -> flat E GM (ar (mini_state GM debug cp m)).
Proof.
  intros H0 H1 H2. constructor; auto.
  - intros H ->. exfalso. apply H1; auto.
  - intros x Hx. cbn [mini_state ar hmem]. unfold mini_host, GSIZE. replace ((GM <=? GM + x) && (GM + x <? GM + 1114112)) with true by lia. eauto.
Qed.
Lemma mini_wf debug cp m : wf_regs (ar (mini_state GM debug cp m)).
Proof. constructor; cbn [mini_state ar gprs r_ss r_ds r_es r_fs r_gs r_cs r_ip r_flags]; unfold inrange; try lia. apply setf_range; unfold P_SP; lia. Qed.
Lemma mini_wf_state debug cp m : bytes m -> wf_state (mini_state GM debug cp m).
Proof.
  intros Hm. constructor; try (cbn; lia).
  - apply mini_wf.
  - intros x b. cbn [mini_state ar hmem]. unfold mini_host. destruct (_ && _); [|discriminate]. intros [= <-]. apply Hm.
Qed.
Lemma mini_reg debug cp m n : 0 <= n < 8 -> reg 16 n (ar (mini_state GM debug cp m)) = if n =? 4 then 0xFFFE else 0.
Proof.
  intros H. assert (n = 0 \/ n = 1 \/ n = 2 \/ n = 3 \/ n = 4 \/ n = 5 \/ n = 6 \/ n = 7) as K by lia.
  destruct K as [->|[->|[->|[->|[->|[->|[->| ->]]]]]]]; reflexivity.
Qed.
Lemma mini_polite nullc ports : polite (mini_env nullc ports).
Proof. intros h n s W. cbn [mini_env callback]. split; [apply effect_refl, W|]. auto. Qed.
Lemma mini_quiet nullc ports : quiet_host (mini_env nullc ports).
Proof. intros h n s. split; [reflexivity|auto]. Qed.
Lemma mini_image_byte len f : bytes f -> bytes (mini_image len f).
Proof. intros B y. unfold mini_image. destruct (_ && _); [apply B|]. apply mfill_byte; [apply mini_bios_byte|lia]. Qed.
Definition mini_start (s : st) (nullc : bool) (ports : list ioev -> Z -> Z -> Z) (c : Z) : Prop :=
  ready (mini_env nullc ports) GM s /\ wf_state s /\ r_cs (ar s) = 0xF000 /\ r_ip (ar s) = 0xFFF0 /\ cpu (ar s) = c /\
  r_ss (ar s) = 0 /\ r_ds (ar s) = 0 /\ r_es (ar s) = 0 /\ (forall n, 0 <= n < 8 -> reg 16 n (ar s) = if n =? SP then 0xFFFE else 0) /\
  (forall n, hle (ar s) n = 0) /\ lastnull s = false.
Lemma mini_state_start nullc ports debug c m : 0 <= GM -> (nullc = true -> GM <> 0) -> bytes m -> mini_start (mini_state GM debug c m) nullc ports c.
Proof.
  intros H0 H1 B. split.
  - constructor; [apply mini_flat; assumption|apply mini_wf|unfold normal_pc; cbn; lia|cbn; lia].
  - split; [apply mini_wf_state, B|]. do 6 (split; [reflexivity|]). split; [intros; apply mini_reg; assumption|]. split; reflexivity.
Qed.
Theorem mini_boot_ok nullc ports debug name c len f : 0 <= GM -> (nullc = true -> GM <> 0) -> bytes f -> 0 <= len <= 0x10000 -> len mod 16 = 0 -> cpu_of name = Some c ->
  exists s, mini_boot GM debug name (Some (len, f)) = BRun s /\ mini_start s nullc ports c /\
    (forall k, 0 <= k < len -> byte (ar s) (0x100000 - len + k) = f k) /\
    (forall n, 0 <= n < 256 -> vector n (ar s) = (0, 0)) /\
    (forall x, 0x400 <= x < 0x9FFFE \/ 0xA0000 <= x < 0xF0000 -> byte (ar s) x = 0xF1).
Proof.
  intros H0 H1 B Hl Hm Hc. unfold mini_boot, mini_load. replace (Z.land len 15 =? 0) with true by (change 15 with (Z.ones 4); rewrite Z.land_ones by lia; change (2 ^ 4) with 16; lia).
  cbn [negb]. replace (0x10000 <? len) with false by lia. rewrite Hc.
  assert (Bm : bytes (last_word (mini_image len f))) by (apply last_word_byte, mini_image_byte, B).
  exists (mini_state GM debug c (last_word (mini_image len f))). split; [reflexivity|]. split; [apply mini_state_start; assumption|].
  split; [|split].
  - intros k Hk. rewrite mini_byte, last_word_out by lia. unfold mini_image. replace (_ && _) with true by lia. f_equal. lia.
  - intros n Hn. unfold vector, mem. change (Z.to_nat (16 / 8)) with 2%nat. cbn [peek]. rewrite !mini_byte, !last_word_out by lia.
    assert (K : forall x, 0 <= x < 0x400 -> mini_image len f x = 0).
    { intros x Hx. unfold mini_image, mfill. replace ((1048576 - len <=? x) && (x <? 1048576)) with false by lia. replace ((0 <=? x) && (x <? 0 + 1024)) with true by lia. reflexivity. }
    rewrite !K by lia. reflexivity.
  - intros x Hx. rewrite mini_byte, last_word_out by lia. unfold mini_image, mfill. replace ((1048576 - len <=? x) && (x <? 1048576)) with false by lia. replace ((0 <=? x) && (x <? 0 + 1024)) with false by lia.
    apply mini_bios_fill. lia.
Qed.
End Mini.

(** ** The 00 00 flag *)
Lemma effect_flat E base s s' : flat E base (ar s) -> guest_effect s s' -> flat E base (ar s').
Proof.
  intros [F0 F1 F2 F3] [W [Hm Hh Hc Hd Hdom] _ _]. constructor; try assumption.
  - intros b Hb. rewrite Hm. apply F2, Hb.
  - intros x Hx. destruct (F3 x Hx) as (b & Hb & _). destruct (hmem (ar s') (base + x)) as [b'|] eqn:K.
    + exists b'. split; [reflexivity|]. apply (ws_bytes _ W _ _ K).
    + apply Hdom in K. congruence.
Qed.
Section Null.
Context (E : env) (base : Z) (Q : quiet_host E).
Lemma null_ok cs ip s u s' : null_hack E cs ip s = Ok u s' -> lastnull s' = true -> ar s' = ar s /\ rd E 8 cs ip s = Ok 0 s /\ rd E 8 cs (ip + 1) s = Ok 0 s.
Proof.
  unfold null_hack, bind, getD, gets. destruct (_ =? 2); [|intros [= <- <-]; discriminate].
  destruct (rd E 8 cs ip s) as [b1 s1|c1 s1|r|] eqn:R1; try discriminate. pose proof (PKeep3.rd_st _ _ _ _ _ _ _ R1) as ->.
  destruct (rd E 8 cs (ip + 1) s) as [b2 s2|c2 s2|r|] eqn:R2; try discriminate. pose proof (PKeep3.rd_st _ _ _ _ _ _ _ R2) as ->.
  destruct (Z.eqb_spec b1 0) as [->|]; [|intros [= <- <-]; discriminate]. destruct (Z.eqb_spec b2 0) as [->|]; [|intros [= <- <-]; discriminate]. cbn [andb].
  destruct (lastnull s); [discriminate|]. intros [= <- <-] _. auto.
Qed.
Lemma dump_st n : forall cs i s u s', dump_bytes E n cs i s = Ok u s' -> s' = s.
Proof.
  induction n as [|n IH]; intros cs i s u s'; cbn [dump_bytes]; [intros [= <- <-]; reflexivity|]. unfold bind. destruct (rd E 8 cs i s) as [b s1|c s1|r|] eqn:R; try discriminate.
  pose proof (PKeep3.rd_st _ _ _ _ _ _ _ R) as ->. apply IH.
Qed.
Lemma trace_st cs ip s u s' : trace_dump E cs ip s = Ok u s' -> s' = s.
Proof. unfold trace_dump, bind, gets, getD, gets. destruct (1 <=? dbg s); [|intros [= <- <-]; reflexivity]. destruct (_ <? 0); [discriminate|]. apply dump_st. Qed.
Theorem null_step s s' : flat E base (ar s) -> wf_state s -> run_one E s = Ok tt s' -> flat E base (ar s') -> lastnull s' = true ->
  zeros s s' \/ (lastnull s = true /\ (hle_entry_pc (ar s) \/ opcode_at (ar s) divides)).
Proof.
  intros F Ws. assert (W : wf_regs (ar s)) by apply Ws. assert (Hby : byte_memory s) by (exact (ws_bytes _ Ws)). unfold run_one. destruct ((r_ip (ar s) =? 65535) && (r_cs (ar s) =? 65535)) eqn:H1; [discriminate|].
  destruct ((r_cs (ar s) =? 47104) && (r_ip (ar s) <? 256)) eqn:H2.
  { intros Hr _ Hl. right. assert (lastnull s' = lastnull s) as <-; [|split; [exact Hl|left; unfold hle_entry_pc; lia]]. revert Hr.
    pose proof (says_hle E Q (fun _ => True) (r_ip (ar s)) s Hby) as Hh. destruct (call_hle E (r_ip (ar s)) s) as [u s1|c1 s1|r|]; try discriminate. destruct Hh as (Hh & Hb1 & _).
    pose proof (says_exec1 E Q (fun _ => True) I OIret 0 (fun _ => I) (fun _ => I) (fun _ => I) (fun _ => I) (fun _ => I) s1 Hb1) as Hi. cbn [exec1] in Hi.
    destruct (x_iret E s1) as [u2 s2|c2 s2|r|]; try discriminate; intros [= <-]; destruct Hi as (? & ? & ?); congruence. }
  destruct (do_opcode E s) as [[] s1|c1 s1|r|] eqn:Hd; try discriminate.
  - intros [= <-] Ff Hl. left. revert Hd. unfold do_opcode, bind, getA, gets, upd_dc, modify. destruct (icount _ =? 2147483647); [discriminate|].
    destruct (op_loop E 6 _) as [u2 s2|c2 s2|r|]; try discriminate. destruct (advance_ip s2) as [u3 s3|c3 s3|r|]; try discriminate.
    destruct (null_hack E (r_cs (ar s)) (r_ip (ar s)) s3) as [u4 s4|c4 s4|r|] eqn:En; try discriminate. intros Ht. apply trace_st in Ht. subst s4.
    destruct (null_ok _ _ _ _ _ En Hl) as (Ha & R1 & R2). unfold zeros. rewrite Ha in *. destruct s3 as [a3 d3 g3 n3 l3]. cbn [ar] in *.
    rewrite (rd_flat E base) in R1, R2 by (try assumption; try apply W; unfold width; lia).
    injection R1 as R1. injection R2 as R2. rewrite mem8 in R1, R2. unfold wrap in R1, R2. change (2 ^ 16) with 65536 in R1, R2.
    rewrite (Z.mod_small (r_ip (ar s))) in R1 by (destruct (wf_ip _ W); auto). auto.
  - destruct (Z.eqb_spec c1 E_DIVERR) as [->|N]; [|discriminate]. intros Hi _ Hl. right.
    revert Hd. unfold do_opcode, bind, getA, gets, upd_dc, modify. destruct (icount _ =? 2147483647); [discriminate|].
    match goal with |- context [op_loop E 6 ?x] => set (s0 := x) end.
    assert (A0 : ar s0 = ar s) by reflexivity. assert (L0 : lastnull s0 = lastnull s) by reflexivity. assert (D0 : d_ipoff (dc s0) = 0) by reflexivity. clearbody s0.
    assert (Hb0 : byte_memory s0) by (intros x b; rewrite A0; apply Hby).
    pose proof (loop_bytes E Q 6 s0 Hb0) as Hb2. destruct (op_loop E 6 s0) as [u2 s2|c2 s2|r|] eqn:El; try discriminate; destruct Hb2 as [Hb2 Hn2].
    2:{ intros [= -> ->]. rewrite <- A0 in F, W. destruct (loop_codes E Q base 6 s0 E_DIVERR s1 F W Hb0 El) as (Hln & k & op & Hk & Hp & Hc & _). rewrite A0, D0 in *.
        pose proof (says_callint0 E (fun _ => True) I s1 Hb2) as Hs. rewrite Hi in Hs. destruct Hs as (Hs & _ & _).
        split; [congruence|]. right. exists k. split; [exact Hk|]. split; [exact Hp|]. unfold cause, E_DIVERR, E_BREAK, E_HALT, E_BADMEM, E_UNDEF, E_BUG in Hc.
        change (0 + k) with k in Hc. intuition discriminate. }
    intros Hx. exfalso. pose proof (says_advance (fun _ => False) s2 Hb2) as Ha. destruct (advance_ip s2) as [u3 s3|c3 s3|r|]; try discriminate; [|destruct Ha as [[] _]]. destruct Ha as (_ & Hb3 & _).
    destruct (null_hack E (r_cs (ar s)) (r_ip (ar s)) s3) as [u4 s4|c4 s4|r|] eqn:En; try discriminate.
    + apply (trace_codes E) in Hx; [discriminate|]. intros x b. rewrite (null_bytes E _ _ _ _ _ En). apply Hb3.
    + injection Hx as -> ->. destruct (null_codes E _ _ _ _ _ Hb3 En) as [K|(K & _)]; discriminate.
Qed.
(** A run that ends in the second 00 00 has met the first one. *)
Context (P : polite E).
Lemma runs_snoc n s s1 s2 : runs E n s s1 -> run_one E s1 = Ok tt s2 -> runs E (S n) s s2.
Proof. intros H. induction H as [s|k s t s1 Hr H IH]; intros Hs; [econstructor; [exact Hs|constructor]|]. econstructor; [exact Hr|]. apply IH, Hs. Qed.
Theorem null_history n s s1 : flat E base (ar s) -> wf_state s -> runs E n s s1 -> lastnull s = false -> lastnull s1 = true ->
  exists j t t', (j < n)%nat /\ runs E j s t /\ run_one E t = Ok tt t' /\ runs E (n - j - 1) t' s1 /\ zeros t t'.
Proof.
  intros F W H. induction H as [s|k s t s1 Hr H IH]; intros Hl H1; [congruence|].
  pose proof (run_one_general E P s W) as G. rewrite Hr in G. destruct G as (G & _). pose proof (ge_wf _ _ G) as Wt. pose proof (effect_flat E base _ _ F G) as Ft.
  destruct (lastnull t) eqn:Ht.
  - destruct (null_step s t F W Hr Ft Ht) as [K|[K _]]; [|congruence]. exists O, s, t. split; [lia|]. split; [constructor|]. split; [exact Hr|]. split; [replace (S k - 0 - 1)%nat with k by lia; exact H|exact K].
  - destruct (IH Ft Wt eq_refl H1) as (j & u & u' & Hj & R1 & R2 & R3 & Z0). exists (S j), u, u'. split; [lia|]. split; [econstructor; eassumption|]. split; [exact R2|]. split; [replace (S k - S j - 1)%nat with (k - j - 1)%nat by lia; exact R3|exact Z0].
Qed.
Theorem exit_ok fuel s s' : flat E base (ar s) -> wf_state s -> lastnull s = false -> main_loop E fuel s = MExit 0 s' ->
  exists n s1, (n < fuel)%nat /\ runs E n s s1 /\
    ((run_one E s1 = Err E_HALT s' /\ opcode_at (ar s1) (fun b => b = 0xF4)) \/
     (run_one E s1 = Err E_BREAK s' /\ (opcode_at (ar s1) (fun b => b = 0xF1) \/
       (zeros s1 s' /\ exists j t t', (j < n)%nat /\ runs E j s t /\ run_one E t = Ok tt t' /\ runs E (n - j - 1) t' s1 /\ zeros t t')))).
Proof.
  intros F W Hl H. apply main_exit in H. destruct H as (n & s1 & c & Hn & Hs & He & Hc). exists n, s1. split; [exact Hn|]. split; [exact Hs|].
  destruct (runs_general E n P s s1 Hs W) as [G _]. pose proof (effect_flat E base _ _ F G) as F1. pose proof (ge_wf _ _ G) as W1.
  pose proof (run_one_general E P s1 W1) as G1. rewrite He in G1. destruct G1 as [G1 _]. pose proof (effect_flat E base _ _ F1 G1) as F'.
  pose proof (run_codes E Q base s1 c s' F1 W1 He F') as R. unfold exit_code in Hc. destruct R as [R|R|R|R1 R2| |R|R]; try discriminate Hc.
  - left. auto.
  - right. auto.
  - right. split; [exact He|]. right. split; [exact R2|]. apply (null_history n s s1 F W Hs Hl R1).
Qed.
End Null.
Section MiniStop.
Context (GM : Z) (nullc : bool) (ports : list ioev -> Z -> Z -> Z).
Lemma mini_first debug c m b : 0 <= GM -> (nullc = true -> GM <> 0) -> bytes m -> m 0xFFFF0 = b -> fetched (mini_env nullc ports) GM (mini_state GM debug c (last_word m)) [] (mkPfx None false false 0) [b].
Proof.
  intros H0 H1 B Hb. pose proof (last_word_byte m B) as Bl. split; [|split; [reflexivity|]].
  - apply (mini_state_start GM nullc ports debug c _ H0 H1 Bl).
  - split; [vm_compute; discriminate|]. intros [|i] x; [|destruct i; discriminate]. intros [= <-]. change (pc (ar (mini_state GM debug c (last_word m))) + Z.of_nat 0) with 0xFFFF0.
    rewrite mini_byte by lia. rewrite last_word_out by lia. exact Hb.
Qed.
Lemma mini_ready_exit debug c m b code err : 0 <= GM -> (nullc = true -> GM <> 0) -> bytes m -> m 0xFFFF0 = b -> (b = 0xF1 /\ err = E_BREAK) \/ (b = 0xF4 /\ err = E_HALT) -> code = exit_code err ->
  exists s', main_loop (mini_env nullc ports) 1 (mini_state GM debug c (last_word m)) = MExit code s'.
Proof.
  intros H0 H1 B Hb K ->. pose proof (mini_first debug c m b H0 H1 B Hb) as Hf.
  assert (S : stops (mini_env nullc ports) (mini_state GM debug c (last_word m)) err).
  { destruct K as [[-> ->]|[-> ->]]; [eapply f1_stops; exact Hf|eapply hlt_stops; exact Hf]. }
  destruct S as (s' & Hr & _). exists s'. cbn [main_loop]. rewrite Hr. reflexivity.
Qed.
Theorem mini_large debug name c len f : 0 <= GM -> (nullc = true -> GM <> 0) -> 0x10000 < len -> len mod 16 = 0 -> cpu_of name = Some c ->
  exists s s', mini_boot GM debug name (Some (len, f)) = BRun s /\ main_loop (mini_env nullc ports) 1 s = MExit 0 s'.
Proof.
  intros H0 H1 Hl Hm Hc. unfold mini_boot, mini_load. replace (Z.land len 15 =? 0) with true by (change 15 with (Z.ones 4); rewrite Z.land_ones by lia; change (2 ^ 4) with 16; lia).
  cbn [negb]. replace (0x10000 <? len) with true by lia. rewrite Hc.
  destruct (mini_ready_exit debug c (mfill 0 1024 0 mini_bios) 0xF1 0 E_BREAK H0 H1) as [s' K].
  - apply mfill_byte; [apply mini_bios_byte|lia].
  - reflexivity.
  - auto.
  - reflexivity.
  - eauto.
Qed.
End MiniStop.
