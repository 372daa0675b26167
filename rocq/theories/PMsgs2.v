(** Proofs about the messages of failing instructions (C85): what a failing RME_RunOne prints. *)
From Coq Require Import String Ascii.
From Verif Require Import Base Cpu Alu Ops Machine Spec SpecOps SpecOps2 SpecSys SpecRun SpecTop SpecStop SpecEa SpecUb SpecCodes PBase PMem PRun PFrame PAlu PExec PIAlu PIAlu2 PIStack PStep PIInt PKeep PKeep2 PKeep3 PTop PTop2 PTop3 PStop PStop2 PLen PLen2 PCodes Dump SpecDump PDump TraceText SpecTrace PTrace PTrace2 SpecMsgs PMsgs.
Local Open Scope string_scope.
Local Open Scope Z_scope.

Section Msgs2.
Context (E : env) (base : Z) (Pol : polite E) (Q : quiet_host E).

Definition start (s : st) : string := if dbg s <? 1 then "" else header s.
Lemma start_ok s : wf_regs (ar s) -> 0 <= icount s < 2147483648 -> begins_line s (start s).
Proof. intros W Hi. destruct (begins s W Hi) as (t & Ht & H). unfold start. rewrite Ht. exact H. Qed.
Lemma loop_state s : wf_state s -> flat E base (ar s) ->
  match op_loop E 6 (reset s) with
  | Ok _ s2 | Err _ s2 => flat E base (ar s2) /\ wf_regs (ar s2) /\ 0 <= d_ipoff (dc s2) /\ (d_rep (dc s2) = 0 \/ d_rep (dc s2) = 242 \/ d_rep (dc s2) = 243)
  | _ => True
  end.
Proof.
  intros W F. change (reset s) with (ordinary_start s). set (s1 := ordinary_start s).
  assert (W1 : wf_state s1) by (destruct W; constructor; cbn; auto; lia).
  assert (F1 : flat E base (ar s1)) by exact F.
  pose proof (wf_inv s1 W1) as I1.
  pose proof (loop_keeps E gp s1 (gp_mem E s1) (gp_perm E s1 Pol) 6 s1 I1 ltac:(pose proof (unused_range (dc s1)); lia)) as HL.
  destruct (op_loop E 6 s1) as [u s2|c s2|r|]; auto; destruct HL as [I2 _];
    (split; [exact (inv_flat E gp s1 s2 base F1 I2)|]; split; [apply (iv_regs _ _ _ I2)|]; split; [apply (iv_off _ _ _ I2)|apply (iv_rep _ _ _ I2)]).
Qed.
Lemma run_fails s pre p bs c s1 : fetched E base s pre p bs -> wf_state s -> run_one E s = Err c s1 ->
  (op_loop E 6 (reset s) = Err c s1 /\ c <> E_DIVERR /\ run_prints E s = level2 s ++ start s ++ loop_complaint E 6 (reset s)) \/
  (c = E_BREAK /\ lastnull s = true /\ zeros s s1 /\ exists s2, op_loop E 6 (reset s) = Ok tt s2 /\ run_prints E s = level2 s ++ start s ++ (if dbg s <? 1 then "" else warning_t E s s2)).
Proof.
  intros Hf W. pose proof Hf as (R & _ & _). destruct R as [F Wr PC Hc]. pose proof (loop_state s W F) as HL.
  assert (Hby : byte_memory (reset s)) by exact (ws_bytes _ W). pose proof (loop_bytes E Q 6 (reset s) Hby) as Hb2.
  unfold run_one, run_prints, error_text. cbv zeta.
  assert (Hm : (r_ip (ar s) =? 65535) && (r_cs (ar s) =? 65535) = false) by (unfold normal_pc in PC; lia).
  assert (Hh : (r_cs (ar s) =? 47104) && (r_ip (ar s) <? 256) = false) by (unfold normal_pc in PC; lia).
  rewrite Hm, Hh. change (if 2 <=? dbg s then dump_regs (ar s) else "") with (level2 s). change (if dbg s <? 1 then "" else header s) with (start s).
  destruct (op_loop E 6 (reset s)) as [u s2|c2 s2|r|] eqn:El.
  - destruct HL as (F2 & W2 & O2 & R2). destruct Hb2 as [B2 L2].
    pose proof (says_advance (fun _ => False) s2 B2) as Ha.
    assert (Hadv : exists s3, advance_ip s2 = Ok tt s3 /\ flat E base (ar s3) /\ 0 <= d_ipoff (dc s3)).
    { destruct s2 as [a2 d2 g2 n2 l2]. cbn [ar dc] in *. unfold advance_ip. msteps. destruct (d_noip d2); [eexists; split; [reflexivity|split; [exact F2|exact O2]]|]. msteps.
      eexists. split; [reflexivity|]. split; [|exact O2]. eapply flat_ext; [| |exact F2]; reflexivity. }
    destruct Hadv as (s3 & Hadv & F3 & O3). rewrite Hadv in Ha. destruct Ha as (L3 & B3 & _).
    destruct (null_flat E base (r_cs (ar s)) (r_ip (ar s)) s3 F3 ltac:(apply Wr)) as [[l Hn]|Hn].
    + assert (D : exists x, do_opcode E s = Ok tt x).
      { rewrite (do_opcode_reset E s Hc). unfold bind. rewrite El, Hadv, Hn. rewrite (trace_flat E base) by (try exact F3; try apply Wr; exact O3). eexists; reflexivity. }
      destruct D as [x ->]. discriminate.
    + assert (D : do_opcode E s = Err E_BREAK s3) by (rewrite (do_opcode_reset E s Hc); unfold bind; rewrite El, Hadv, Hn; reflexivity).
      assert (A : (advance_ip ;;; null_hack E (r_cs (ar s)) (r_ip (ar s))) s2 = Err E_BREAK s3) by (unfold bind; rewrite Hadv, Hn; reflexivity).
      rewrite D, A. change (E_BREAK =? E_DIVERR) with false. cbv iota. intros [= <- <-]. right. split; [reflexivity|].
      destruct (null_codes E _ _ _ _ _ B3 Hn) as [X|(_ & _ & Hl & R1 & R3)]; [discriminate X|].
      split; [rewrite L3, L2 in Hl; exact Hl|]. split.
      { destruct s3 as [a3 d3 g3 n3 l3]. unfold zeros. cbn [ar] in *. rewrite (rd_flat E base) in R1, R3 by (try assumption; try apply Wr; unfold width; lia).
        injection R1 as R1. injection R3 as R3. rewrite mem8 in R1, R3. unfold wrap in R1, R3. change (2 ^ 16) with 65536 in R1, R3.
        rewrite (Z.mod_small (r_ip (ar s))) in R1 by (destruct (wf_ip _ Wr); auto). auto. }
      exists s2. split; [destruct u; reflexivity|]. destruct (dbg s <? 1); rewrite ?app_empty; reflexivity.
  - assert (D : do_opcode E s = Err c2 s2) by (rewrite (do_opcode_reset E s Hc); unfold bind; rewrite El; reflexivity). rewrite D.
    destruct HL as (F2 & W2 & _). destruct (Z.eqb_spec c2 E_DIVERR) as [->|N].
    + intros H. exfalso. destruct s2 as [a2 d2 g2 n2 l2]. cbn [ar] in *. destruct (int_callint_eq E base 0 a2 d2 g2 n2 l2 ltac:(lia) F2 W2) as (a' & Hi & _). congruence.
    + intros [= <- <-]. left. split; [reflexivity|]. split; [exact N|]. rewrite app_empty. reflexivity.
  - assert (D : do_opcode E s = UB r) by (rewrite (do_opcode_reset E s Hc); unfold bind; rewrite El; reflexivity). rewrite D. discriminate.
  - assert (D : do_opcode E s = Fuel) by (rewrite (do_opcode_reset E s Hc); unfold bind; rewrite El; reflexivity). rewrite D. discriminate.
Qed.
End Msgs2.
