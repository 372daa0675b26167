(** Proofs about the trace: whole runs, and the bytes of an instruction. *)
From Coq Require Import String Ascii.
From Verif Require Import Base Cpu Alu Ops Machine Spec SpecOps SpecOps2 SpecSys SpecRun SpecTop SpecCodes SpecLen PBase PMem PRun PFrame PAlu PExec PIAlu PIAlu2 PStep PIInt PKeep PKeep2 PKeep3 PTop PTop2 PTop3 PStop PLen PLen2 PNative10 PCodes Dump SpecDump PDump TraceText SpecTrace PTrace.
Local Open Scope string_scope.
Local Open Scope Z_scope.

Lemma do_opcode_count E s u s' : do_opcode E s = Ok u s' -> icount s <> 2147483647.
Proof. unfold do_opcode, bind, getA, gets, upd_dc, modify. change (icount (set_dc dec0 s)) with (icount s). destruct (Z.eqb_spec (icount s) 2147483647); [discriminate|auto]. Qed.
Lemma do_opcode_count_err E s c s' : do_opcode E s = Err c s' -> icount s <> 2147483647.
Proof. unfold do_opcode, bind, getA, gets, upd_dc, modify. change (icount (set_dc dec0 s)) with (icount s). destruct (Z.eqb_spec (icount s) 2147483647); [discriminate|auto]. Qed.
(** A divide fault comes from an instruction that divides. *)
Lemma diverr_opcode E base s s' : quiet_host E -> flat E base (ar s) -> wf_state s -> do_opcode E s = Err E_DIVERR s' -> opcode_at (ar s) divides.
Proof.
  intros Q F Ws. assert (W : wf_regs (ar s)) by apply Ws. assert (Hby : byte_memory s) by (exact (ws_bytes _ Ws)).
  unfold do_opcode, bind, getA, gets, upd_dc, modify. destruct (icount _ =? 2147483647); [discriminate|].
  match goal with |- context [op_loop E 6 ?x] => set (s0 := x) end.
  assert (A0 : ar s0 = ar s) by reflexivity. assert (D0 : d_ipoff (dc s0) = 0) by reflexivity. clearbody s0.
  assert (Hb0 : byte_memory s0) by (intros x b; rewrite A0; apply Hby).
  pose proof (loop_bytes E Q 6 s0 Hb0) as Hb2.
  destruct (op_loop E 6 s0) as [u2 s2|c2 s2|r|] eqn:El; try discriminate; destruct Hb2 as [Hb2 Hn2].
  2:{ intros [= -> ->]. rewrite <- A0 in F, W. destruct (loop_codes E Q base 6 s0 E_DIVERR s' F W Hb0 El) as (_ & k & op & Hk & Hp & Hc & Ho). rewrite A0, D0 in *. cbn [Z.add] in Hc.
      exists k. split; [exact Hk|]. split; [exact Hp|]. unfold cause, E_BREAK, E_HALT, E_DIVERR, E_BADMEM, E_UNDEF, E_BUG in Hc. destruct Hc as [[? _]|[[? _]|[[_ Hc]|[?|[[? _]|[? _]]]]]]; try discriminate. exact Hc. }
  pose proof (says_advance (fun _ => False) s2 Hb2) as Ha. destruct (advance_ip s2) as [u3 s3|c3 s3|r|]; try discriminate; [|destruct Ha as [[] _]]. destruct Ha as (Hl3 & Hb3 & _).
  destruct (null_hack E (r_cs (ar s)) (r_ip (ar s)) s3) as [u4 s4|c4 s4|r|] eqn:En; try discriminate.
  - intros Ht. pose proof (trace_codes E _ _ _ _ _ ltac:(intros x b; rewrite (null_bytes E _ _ _ _ _ En); apply Hb3) Ht) as X. discriminate X.
  - intros [= -> ->]. destruct (null_codes E _ _ _ _ _ Hb3 En) as [X|(X & _)]; discriminate X.
Qed.
(** A divide fault prints no message of its own. *)
Lemma rd_err E w cs ip s c s' : rd E w cs ip s = Err c s' -> c = E_BADMEM.
Proof.
  unfold rd, bind, getptr. repeat match goal with |- context [if ?b then _ else _] => destruct b end; try discriminate; try (intros [= <- _]; reflexivity);
  unfold hload; destruct (load_bytes _ _ _); discriminate.
Qed.
Lemma null_not_div E cs ip s s' : null_hack E cs ip s <> Err E_DIVERR s'.
Proof.
  unfold null_hack, bind, getD, gets, modify. destruct (d_ipoff (dc s) =? 2); [|discriminate].
  destruct (rd E 8 cs ip s) as [b1 s1|c1 s1|r|] eqn:E1; try discriminate; [|apply rd_err in E1; subst; discriminate].
  destruct (rd E 8 cs (ip + 1) s1) as [b2 s2|c2 s2|r|] eqn:E2; try discriminate; [|apply rd_err in E2; subst; discriminate].
  destruct (_ && _); [destruct (lastnull s2)|]; discriminate.
Qed.
Lemma dump_not_div E cs n : forall i s s', dump_bytes E n cs i s <> Err E_DIVERR s'.
Proof.
  induction n as [|n IH]; intros i s s'; cbn [dump_bytes]; [discriminate|]. unfold bind. destruct (rd E 8 cs i s) as [b s1|c s1|r|] eqn:E1; try discriminate; [apply IH|apply rd_err in E1; subst; discriminate].
Qed.
Lemma complaint1_div E o p s : complaint1 E o p E_DIVERR s = "".
Proof. destruct o; cbn; try reflexivity; repeat match goal with |- context [match ?b with _ => _ end] => destruct b end; reflexivity. Qed.
Lemma loop_div E n : forall s s', op_loop E n s = Err E_DIVERR s' -> loop_complaint E n s = "".
Proof.
  induction n as [|n IH]; intros s s'; cbn [op_loop loop_complaint]; [reflexivity|].
  unfold op_once. unfold bind at 1. destruct (fetch8 E s) as [b s1|c s1|r|]; try reflexivity. destruct (b =? 241); [discriminate|]. destruct (ca_op b) as [e|]; [|discriminate].
  unfold bind at 1. destruct (op_param E e s1) as [p s2|c s2|r|]; try reflexivity. destruct (exec E (e_op e) p s2) as [u s3|c s3|r|] eqn:Ex; try reflexivity.
  destruct (Z.eqb_spec c E_CONTINUE) as [->|Nc]; [apply IH|]. intros [= -> _]. unfold complaint. revert Ex. unfold exec. destruct (e_op e); try (intros _; apply complaint1_div).
  unfold bind. destruct (fetch8 E s2) as [b2 s4|c s4|r|]; try reflexivity. destruct (ca_op0F b2) as [e2|]; [intros _; apply complaint1_div|discriminate].
Qed.
Lemma diverr_text E s s' : do_opcode E s = Err E_DIVERR s' -> error_text E s = "".
Proof.
  unfold error_text. unfold do_opcode, bind at 1 2 3 4 5, getA, gets, upd_dc, modify. change (icount (set_dc dec0 s)) with (icount s). destruct (icount s =? 2147483647); [discriminate|].
  unfold bind at 1. change (set_icount (icount s + 1) (set_dc dec0 s)) with (reset s). unfold bind at 1. destruct (op_loop E 6 (reset s)) as [u s1|c s1|r|] eqn:El; try discriminate; [|intros [= -> _]; eapply loop_div; eauto].
  intros H. exfalso. revert H.
  assert (X : forall s2, (null_hack E (r_cs (ar s)) (r_ip (ar s)) ;;; trace_dump E (r_cs (ar s)) (r_ip (ar s))) s2 <> Err E_DIVERR s').
  { intros s2 H. unfold bind in H. destruct (null_hack E _ _ s2) as [u2 s3|c s3|r|] eqn:En; try discriminate H; [|replace c with E_DIVERR in En by congruence; exact (null_not_div _ _ _ _ _ En)].
    revert H. unfold trace_dump, bind, getD, gets. destruct (1 <=? dbg s3); [|discriminate]. destruct (d_ipoff (dc s3) <? 0); [discriminate|]. intros H. exact (dump_not_div _ _ _ _ _ _ H). }
  unfold bind at 1. destruct (advance_ip s1) as [u2 s2|c s2|r|] eqn:Ea; [apply X| |discriminate|discriminate]. exfalso. revert Ea. unfold advance_ip, bind, getD, getA, gets, set_ip, upd_ar, modify. destruct (d_noip (dc s1)); discriminate.
Qed.
Lemma fault_shown s : 1 <= dbg s -> header s ++ callint_t 0 s = fault_line (pad_i 8 (icount s + 1)) (fmt_x 0 (r_cs (ar s) * 16 + r_ip (ar s))) (fmt_x 4 (r_cs (ar s))) (fmt_x 4 (r_ip (ar s))).
Proof.
  intros H0. unfold callint_t, header, fault_line, line_start. replace (0 <? dbg s) with true by lia. change ((0 <? 0) || (255 <? 0)) with false. cbv iota. change (fmt_x 0 (wrap 32 0)) with "0".
  cbn [joined]. rewrite !app_empty. rewrite !app_assoc_s. reflexivity.
Qed.
(** One RME_RunOne, whole runs. *)
Lemma run_traced E base n : forall s s', quiet_host E -> polite E -> flat E base (ar s) -> wf_state s -> 0 <= icount s < 2147483648 -> 1 <= dbg s ->
  runs E n s s' -> traced E s (trace E n s) s'.
Proof.
  induction n as [|n IH]; intros s s' Q P F W Hi Hd R; inversion R; subst; [constructor|].
  match goal with H : run_one E s = Ok tt ?x |- _ => rename H into Hr; rename x into s1 end. match goal with H : runs E n s1 s' |- _ => rename H into Rn end.
  cbn [trace]. rewrite Hr. pose proof (run_one_general E P s W) as G. rewrite Hr in G. destruct G as (G & Nm & HC).
  pose proof (effect_flat E base s s1 F G) as F1. assert (D1 : dbg s1 = dbg s) by apply (ge_config _ _ G). assert (W1 : wf_state s1) by apply G.
  assert (Hm : (r_ip (ar s) =? 65535) && (r_cs (ar s) =? 65535) = false) by (unfold magic in Nm; lia).
  unfold run_prints. cbv zeta. rewrite Hm. change (if 2 <=? dbg s then dump_regs (ar s) else "") with (level2 s).
  destruct HC as [[[_ Nh] Hc]|[Hh Hc]].
  - assert (Hh : (r_cs (ar s) =? 47104) && (r_ip (ar s) <? 256) = false) by (unfold hle_entry_pc in Nh; lia). rewrite Hh. replace (dbg s <? 1) with false by lia. cbv iota.
    revert Hr. unfold run_one. rewrite Hm, Hh. intros Hr. destruct (do_opcode E s) as [u s2|c s2|r|] eqn:Eo; try discriminate Hr.
    + destruct u. injection Hr as ->. pose proof (do_opcode_count E s tt s1 Eo) as Nc. rewrite rest_line. rewrite app_assoc_s.
      pose proof (IH s1 s' Q P F1 W1 ltac:(lia) ltac:(lia) Rn) as T. eapply traced_line; [split; assumption| | | | |exact T].
      * unfold run_one. rewrite Hm, Hh, Eo. reflexivity.
      * rewrite Hc. apply place_ok; [apply W|lia].
      * apply plain_middle.
      * apply plain_bytes.
    + destruct (Z.eqb_spec c E_DIVERR) as [->|]; [|discriminate Hr]. pose proof (do_opcode_count_err E s _ _ Eo) as Nc. rewrite !app_assoc_s.
      rewrite (diverr_text E s _ Eo). cbn [append]. change (E_DIVERR =? E_DIVERR) with true. cbv iota. rewrite <- (app_assoc_s (header s)), (fault_shown s Hd). pose proof (IH s1 s' Q P F1 W1 ltac:(lia) ltac:(lia) Rn) as T. eapply traced_fault; [split; assumption| | | |exact T].
      * unfold run_one. rewrite Hm, Hh, Eo. exact Hr.
      * eapply diverr_opcode; eauto.
      * rewrite Hc. apply place_ok; [apply W|lia].
  - assert (Hh' : (r_cs (ar s) =? 47104) && (r_ip (ar s) <? 256) = true) by (unfold hle_entry_pc in Hh; lia). rewrite Hh'. rewrite app_empty.
    apply traced_callback with s1; [exact Hh|exact Hr|]. apply IH; auto; lia.
Qed.
Lemma run_silent E n : forall s s', polite E -> wf_state s -> dbg s < 1 -> runs E n s s' -> trace E n s = "".
Proof.
  induction n as [|n IH]; intros s s' P W Hd R; [reflexivity|]. inversion R; subst. clear R. match goal with H : run_one E s = Ok tt ?x, H' : runs E n ?x s' |- _ => rename H into Hr; rename H' into Rn; rename x into s1 end.
  cbn [trace]. rewrite Hr. pose proof (run_one_general E P s W) as G. rewrite Hr in G. destruct G as (G & _).
  rewrite (IH s1 s' P) by first [apply G|exact Rn|rewrite (sc_dbg _ _ (ge_config _ _ G)); exact Hd]. rewrite app_empty.
  unfold run_prints. cbv zeta. replace (2 <=? dbg s) with false by lia. replace (dbg s <? 1) with true by lia. cbn [append].
  revert Hr. unfold run_one. destruct (_ && _); [reflexivity|]. destruct (_ && _); [reflexivity|]. destruct (do_opcode E s) as [u s2|c s2|r|] eqn:Eo; try discriminate; [reflexivity|].
  destruct (Z.eqb_spec c E_DIVERR) as [->|]; [|discriminate]. intros _. rewrite (diverr_text E s _ Eo). unfold callint_t. replace (0 <? dbg s) with false by lia. reflexivity.
Qed.
(** The bytes. *)
Lemma hex2_byte b : 0 <= b < 256 -> hex_text 2 b (fmt_x 2 b). Proof. intros H. apply fmt_x_ok; try lia. Qed.

Lemma size_dec E base s pre p bs : polite E -> fetched E base s pre p bs -> wf_state s -> 0 <= cpu (ar s) <= 2 ->
  insn_size p bs = Some (blen bs) -> length_known p bs -> match do_opcode E s with Ok _ s' => d_ipoff (dc s') = blen (pre ++ bs) | Err c _ => c = E_DIVERR -> may_divfault bs | _ => True end.
Proof.
  intros Hpol Hf Hw Hcpu Hsz Hk. pose proof Hf as (Rd & Hp & C). destruct Rd as [F W PC Hc].
  assert (Hbytes : forall b, In b bs -> 0 <= b < 256).
  { intros b Hb. destruct C as [_ C]. apply In_nth_error in Hb. destruct Hb as [i Hi].
    assert (Hi2 : nth_error (pre ++ bs) (List.length pre + i) = Some b) by (rewrite nth_error_app2 by lia; replace (List.length pre + i - List.length pre)%nat with i by lia; exact Hi).
    apply C in Hi2. rewrite <- Hi2. unfold byte. destruct (hmem (ar s) _) eqn:Hh; [eapply ws_bytes; eauto|lia]. }
  destruct (size_dispatch p bs _ Hbytes Hsz Hk) as (Hr & o & k & m & l & t & Hd & Hl & Hn & (h & Hh & Hm) & Hpre).
  destruct (dispatch_class bs o k m Hr Hbytes Hd) as (Hcl & Ha & Hm1 & Hm2).
  pose proof (prefixes_length _ _ Hp) as Hpl. assert (Hbl : 0 <= blen pre <= 4) by (unfold blen; lia).
  set (s0 := hstart s p (blen pre + m)).
  assert (W0 : wf_state s0) by (eapply wf_hstart; eauto; lia).
  pose proof (inv_refl (opperm o) s0 W0) as I0.
  pose proof (opperm_ok E s0 o Hpol Hcpu) as Hperm.
  assert (Hmem : (exists base, flat E base (ar s0)) \/ (pm_ub (opperm o) UbDeref /\ pm_ub (opperm o) UbUninit)) by (left; exists base; exact F).
  pose proof (proj1 (keeps_run _ _ _ _ _) (exec1_keeps E (opperm o) s0 Hmem o k Ha Hperm (cl_pre _ _ Hcl)) s0 I0) as HX.
  unfold s0, hstart in HX. destruct s as [a d g n0 l0]. cbn [ar dc dbg icount lastnull] in *.
  rewrite do_opcode_eq by exact Hc. unfold bind at 1.
  rewrite (op_loop_exec E base a pre p g (n0 + 1) l0 bs o k m F W C Hp Hd).
  destruct (exec1 E o k (mkSt a (dec_of p (blen pre + m)) g (n0 + 1) l0)) as [[] s2|c s2|r|] eqn:Hx; try contradiction.
  - destruct HX as (I2 & _).
    assert (C2 : code_from a (blen pre + m) t).
    { rewrite Hh in C. pose proof (code_from_0 _ _ C) as C0. apply code_from_app in C0. apply code_from_app in C0. rewrite Z.add_0_l, Hm in C0. exact C0. }
    assert (K : kp false (mkSt a (dec_of p (blen pre + m)) g (n0 + 1) l0) s2 (blen bs - m)).
    { apply (fun H => exec_size E base false p a (blen pre + m) t F W C2 o k l _ Hl Hn (Hpre false ltac:(discriminate)) _ tt s2 H Hx). repeat split. }
    destruct K as [K1 K2 K3 K4 K5 _]. cbn [dc dec_of d_ipoff d_noip ar] in *.
    set (s3 := set_ar (a_ip (wrap 16 (r_ip (ar s2) + d_ipoff (dc s2))) (ar s2)) s2) in *.
    assert (Hadv : advance_ip s2 = Ok tt s3).
    { unfold s3, advance_ip, bind, getD, getA, gets. rewrite K4. reflexivity. }
    unfold bind at 1. rewrite Hadv.
    assert (F3 : flat E base (ar s3)).
    { pose proof (inv_flat E _ s0 s2 base F I2) as F2. eapply flat_ext; [| |exact F2]; reflexivity. }
    unfold bind at 1. destruct (null_flat E base (r_cs a) (r_ip a) s3 F3 ltac:(apply W)) as [[l' Hn']|Hn']; rewrite Hn'; [|discriminate].
    rewrite (trace_flat E base) by (try exact F3; try apply W; cbn; apply (iv_off _ _ _ I2)).
    change (d_ipoff (dc s2) = blen (pre ++ bs)). rewrite K1. unfold blen. rewrite app_length. unfold blen. lia.
  - destruct HX as (I2 & Hc2 & Hdv). replace (c =? E_CONTINUE) with false by (unfold E_CONTINUE; lia). intros ->. apply Hcl, Hdv. reflexivity.
  - exact I.
Qed.
Lemma peek_flat E base s cs i : flat E base (ar s) -> inrange 16 cs -> peek E s cs i = byte (ar s) (lin cs (wrap 16 i)).
Proof. intros F H. destruct s as [a d g n l]. unfold peek. cbn [ar] in *. rewrite (rd_flat E base) by (auto; unfold width; auto). rewrite mem8. reflexivity. Qed.
Lemma bytes_shown E base s' cs n : flat E base (ar s') -> wf_state s' -> inrange 16 cs -> forall i, 0 <= i -> i + Z.of_nat n <= 65536 ->
  shows_bytes (map (fun j => byte (ar s') (16 * cs + i + Z.of_nat j)) (seq 0 n)) (bytes_text E n s' cs i).
Proof.
  intros F W Hc. induction n as [|n IH]; intros i H0 H1; [reflexivity|]. cbn [seq map shows_bytes bytes_text].
  rewrite (peek_flat E base) by assumption. unfold wrap at 1. rewrite Z.mod_small by (change (2 ^ 16) with 65536; lia). rewrite Z.add_0_r. replace (lin cs i) with (16 * cs + i) by (unfold lin; lia).
  exists (fmt_x 2 (byte (ar s') (16 * cs + i))), (bytes_text E n s' cs (wrap 16 (i + 1))). split; [cbn [joined]; rewrite app_empty; reflexivity|].
  split; [apply hex2_byte; unfold byte; destruct (hmem (ar s') _) eqn:Hh; [eapply ws_bytes; eauto|lia]|].
  rewrite <- seq_shift, map_map. destruct n as [|n]; [reflexivity|].
  unfold wrap. rewrite Z.mod_small by (change (2 ^ 16) with 65536; lia).
  specialize (IH (i + 1) ltac:(lia) ltac:(lia)). erewrite map_ext; [exact IH|]. intros j. cbv beta. apply (f_equal (byte (ar s'))). rewrite Nat2Z.inj_succ. lia.
Qed.

(** What one RME_RunOne prints at an instruction of known length. *)
Lemma line_bytes E base s pre p bs s1 : polite E -> fetched E base s pre p bs -> wf_state s -> 0 <= cpu (ar s) <= 2 -> 0 <= icount s < 2147483648 -> 1 <= dbg s ->
  insn_size p bs = Some (blen bs) -> length_known p bs -> run_one E s = Ok tt s1 ->
  (do_opcode E s = Ok tt s1 /\ exists num lin cs ip bytes,
     run_prints E s = level2 s ++ line num lin cs ip (middle E s s1) bytes /\ names_place (icount s1) (r_cs (ar s)) (r_ip (ar s)) num lin cs ip /\
     shows_bytes (map (fun j => byte (ar s1) (pc (ar s) + Z.of_nat j)) (seq 0 (List.length (pre ++ bs)))) bytes) \/
  (may_divfault bs /\ exists num lin cs ip, run_prints E s = level2 s ++ fault_line num lin cs ip /\ names_place (icount s1) (r_cs (ar s)) (r_ip (ar s)) num lin cs ip).
Proof.
  intros P Hf W Hcpu Hi Hd Hsz Hk Hr. pose proof (size_dec E base s pre p bs P Hf W Hcpu Hsz Hk) as HS. pose proof Hf as ([F Wr PC _] & Hp & C).
  pose proof (run_one_general E P s W) as G. rewrite Hr in G. destruct G as (G & Nm & HC).
  pose proof (effect_flat E base s s1 F G) as F1. assert (W1 : wf_state s1) by apply G.
  assert (Hm : (r_ip (ar s) =? 65535) && (r_cs (ar s) =? 65535) = false) by (unfold magic in Nm; lia).
  assert (Hh : (r_cs (ar s) =? 47104) && (r_ip (ar s) <? 256) = false) by (unfold normal_pc in PC; lia).
  assert (Hc : icount s1 = icount s + 1) by (destruct HC as [[_ Hc]|[X _]]; [exact Hc|unfold hle_entry_pc in X; lia]).
  unfold run_prints. cbv zeta. rewrite Hm, Hh. replace (dbg s <? 1) with false by lia. cbv iota. change (if 2 <=? dbg s then dump_regs (ar s) else "") with (level2 s).
  revert Hr. unfold run_one. rewrite Hm, Hh. intros Hr. destruct (do_opcode E s) as [[] s2|c s2|r|] eqn:Eo; try discriminate Hr.
  - injection Hr as ->. left. split; [reflexivity|]. rewrite rest_line. do 5 eexists. split; [reflexivity|]. split; [rewrite Hc; apply place_ok; [exact Wr|lia]|].
    rewrite HS. unfold blen. rewrite Nat2Z.id. destruct C as [C _]. unfold blen in C. destruct Wr. unfold inrange in *.
    change (pc (ar s)) with (16 * r_cs (ar s) + r_ip (ar s)). apply (bytes_shown E base); auto; lia.
  - destruct (Z.eqb_spec c E_DIVERR) as [->|]; [|discriminate Hr]. right. split; [apply HS; reflexivity|].
    exists (pad_i 8 (icount s + 1)), (fmt_x 0 (r_cs (ar s) * 16 + r_ip (ar s))), (fmt_x 4 (r_cs (ar s))), (fmt_x 4 (r_ip (ar s))).
    split; [rewrite (diverr_text E s _ Eo); cbn [append]; change (E_DIVERR =? E_DIVERR) with true; cbv iota; rewrite (fault_shown s Hd); reflexivity|]. rewrite Hc. apply place_ok; [exact Wr|lia].
Qed.
