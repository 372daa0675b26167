(** Proofs about the messages of failing instructions (C85): what the loop says. *)
From Coq Require Import String Ascii.
From Verif Require Import Base Cpu Alu Ops Machine Spec SpecOps SpecOps2 SpecSys SpecRun SpecTop SpecStop SpecEa SpecUb SpecCodes PBase PMem PRun PFrame PAlu PExec PIAlu PIAlu2 PIStack PStep PIInt PKeep PKeep2 PKeep3 PTop PTop2 PTop3 PStop PStop2 PEa PEa2 PEa3 PUb4 PLen PLen2 PCodes Dump SpecDump PDump TraceText SpecTrace PTrace PTrace2 SpecMsgs.
Local Open Scope string_scope.
Local Open Scope Z_scope.

Section Msgs.
Context (E : env) (base : Z).

(** ** The loop *)
Definition pass (f : nat) (b : Z) (s s1 : st) : string :=
  if b =? 241 then " Executing unset memory (opcode 0xF1) " ++ place_t s else
  match ca_op b with
  | None => " Unkown Opcode 0x" ++ fmt_x 2 b
  | Some e =>
    match op_param E e s1 with
    | Ok p s2 =>
      match exec E (e_op e) p s2 with
      | Err c s3 => if c =? E_CONTINUE then loop_complaint E f s3 else complaint E (e_op e) p c s2
      | _ => ""
      end
    | _ => ""
    end
  end.
Lemma lc_pass f b t a p off g n l : flat E base a -> wf_regs a -> code_from a off (b :: t) ->
  loop_complaint E (S f) (mkSt a (dec_of p off) g n l) = pass f b (mkSt a (dec_of p off) g n l) (mkSt a (dec_of p (off + 1)) g n l).
Proof.
  intros F W C. cbn [loop_complaint]. rewrite (fetch8_code E base a (dec_of p off) g n l b t F W C). cbn [d_ipoff dec_of].
  change (dd_ipoff (off + 1) (dec_of p off)) with (dec_of p (off + 1)). reflexivity.
Qed.
Lemma add_prefix_byte p b p' : add_prefix p b = Some p' -> prefix_byte b.
Proof.
  intros H. unfold prefix_byte. cbn [In]. destruct (add_prefix_cases _ _ _ H) as [(k & Hk & _)|[(-> & _)|[(-> & _)|([->| ->] & _)]]]; try (cbn [In]; tauto).
  apply seg_prefix_cases in Hk. lia.
Qed.
Lemma lc_prefix f b t a p p' off g n l : flat E base a -> wf_regs a -> code_from a off (b :: t) -> add_prefix p b = Some p' ->
  loop_complaint E (S f) (mkSt a (dec_of p off) g n l) = loop_complaint E f (mkSt a (dec_of p' (off + 1)) g n l).
Proof.
  intros F W C H. rewrite (lc_pass f b t) by assumption. unfold pass.
  pose proof (op_once_prefix E base a p b p' off g n l t F W C H) as O. unfold op_once in O.
  erewrite bind_ok in O by (eapply fetch8_code; [exact F|exact W|exact C]). cbn [d_ipoff dec_of] in O. change (dd_ipoff (off + 1) (dec_of p off)) with (dec_of p (off + 1)) in O.
  destruct (prefix_entry b (add_prefix_byte _ _ _ H)) as (e & He & Hn & Hb & _). replace (b =? 241) with false in * by lia. rewrite He in *.
  unfold op_param in *. rewrite Hn in *. rewrite st_ret in O. unfold ret at 1. rewrite O. reflexivity.
Qed.
Lemma lc_prefixes a pre : forall p p' off g n l t f, flat E base a -> wf_regs a -> code_from a off (pre ++ t)%list -> prefixes_from p pre = Some p' ->
  loop_complaint E (List.length pre + f) (mkSt a (dec_of p off) g n l) = loop_complaint E f (mkSt a (dec_of p' (off + blen pre)) g n l).
Proof.
  induction pre as [|b pre IH]; intros p p' off g n l t f F W C H; cbn [prefixes_from] in H.
  - injection H as <-. unfold blen. cbn [List.length]. change (Z.of_nat 0) with 0. rewrite Z.add_0_r. reflexivity.
  - destruct (add_prefix p b) as [q|] eqn:Hq; [|discriminate]. cbn [List.length Nat.add].
    rewrite (lc_prefix _ b (pre ++ t)%list a p q) by assumption.
    rewrite (IH q p' (off + 1) g n l t f F W (proj2 (code_from_cons _ _ _ _ C)) H). rewrite blen_cons. do 3 f_equal. lia.
Qed.
Lemma lc_exec f a p off g n l bs o k m c s' : flat E base a -> wf_regs a -> code_from a off bs -> dispatch bs = Some (o, k, m) ->
  exec1 E o k (mkSt a (dec_of p (off + m)) g n l) = Err c s' -> c <> E_CONTINUE ->
  loop_complaint E (S f) (mkSt a (dec_of p off) g n l) = complaint1 E o k c (mkSt a (dec_of p (off + m)) g n l).
Proof.
  intros F W C H Hx Hc. destruct bs as [|op t]; [discriminate|]. unfold dispatch in H. rewrite (lc_pass f op t) by assumption. unfold pass.
  destruct (op =? 241); [discriminate|]. destruct (Z.eqb_spec op 15) as [->|Hne].
  - destruct t as [|op2 t]; [discriminate|]. destruct (ca_op0F op2) as [e|] eqn:He; [|discriminate]. injection H as <- <- <-.
    change (ca_op 15) with (DEF OExt0F). unfold DEF. unfold op_param. cbn [e_names e_op e_arg]. unfold ret at 1.
    apply code_from_cons in C. destruct C as [_ C].
    assert (Ef : fetch8 E (mkSt a (dec_of p (off + 1)) g n l) = Ok op2 (mkSt a (dec_of p (off + 2)) g n l)).
    { rewrite (fetch8_code E base a (dec_of p (off + 1)) g n l op2 t F W C). cbn [d_ipoff dec_of]. replace (off + 2) with (off + 1 + 1) by lia. reflexivity. }
    unfold exec, complaint. unfold bind at 1. rewrite Ef, He. rewrite Hx. replace (c =? E_CONTINUE) with false by lia. reflexivity.
  - destruct (ca_op op) as [e|] eqn:He; [|discriminate].
    assert (Hex : e_op e <> OExt0F).
    { pose proof (code_byte_range E base a off op t F W C) as Hr. clear - He Hne Hr. intros Hx.
      assert (Hall : forallb (fun b => match ca_op (Z.of_nat b) with Some e => match e_op e with OExt0F => Nat.eqb b 15 | _ => true end | None => true end) (seq 0 256) = true) by (vm_compute; reflexivity).
      rewrite forallb_forall in Hall. specialize (Hall (Z.to_nat op)). rewrite Z2Nat.id in Hall by lia. rewrite He, Hx in Hall.
      assert (In (Z.to_nat op) (seq 0 256)) as Hin by (apply in_seq; lia). specialize (Hall Hin). apply Nat.eqb_eq in Hall. lia. }
    assert (Hexec : forall k s, exec E (e_op e) k s = exec1 E (e_op e) k s) by (intros; unfold exec; destruct (e_op e); congruence).
    assert (Hcom : forall k c s, complaint E (e_op e) k c s = complaint1 E (e_op e) k c s) by (intros; unfold complaint; destruct (e_op e); congruence).
    unfold op_param. destruct (e_names e) eqn:En.
    + destruct t as [|mb t]; [discriminate|]. injection H as <- <- <-. apply code_from_cons in C. destruct C as [_ C].
      assert (Ep : (m <- get_modrm_nocheck E ;; upd_dc (fun d => dd_ipoff (d_ipoff d - 1) d) ;;; ret (m_rrr m)) (mkSt a (dec_of p (off + 1)) g n l) = Ok ((mb / 8) mod 8) (mkSt a (dec_of p (off + 1)) g n l)).
      { erewrite bind_ok.
        2:{ unfold get_modrm_nocheck. rewrite (get_modrm_code E base a p (off + 1) g n l mb t F W C). reflexivity. }
        rewrite st_upd_dc. unfold ret. cbn [d_ipoff dec_of]. replace (dd_ipoff (off + 1 + 1 - 1) (dec_of p (off + 1 + 1))) with (dec_of p (off + 1)) by (unfold dec_of, dd_ipoff; cbn; f_equal; lia). reflexivity. }
      rewrite Ep, Hexec, Hx, Hcom. replace (c =? E_CONTINUE) with false by lia. reflexivity.
    + injection H as <- <- <-. unfold ret at 1. rewrite Hexec, Hx, Hcom. replace (c =? E_CONTINUE) with false by lia. reflexivity.
Qed.
(** The whole loop behind the prefixes. *)
Lemma lc_whole s pre p bs : fetched E base s pre p bs ->
  loop_complaint E 6 (reset s) = loop_complaint E (S (5 - List.length pre)) (mkSt (ar s) (dec_of p (blen pre)) (dbg s) (icount s + 1) (lastnull s)).
Proof.
  intros (R & Hp & C). destruct R as [F W PC Hc]. pose proof (prefixes_length _ _ Hp) as Hl. destruct s as [a d g n l]. cbn [ar dbg icount lastnull] in *.
  replace 6%nat with (List.length pre + S (5 - List.length pre))%nat by lia.
  change (reset (mkSt a d g n l)) with (mkSt a (dec_of (mkPfx None false false 0) 0) g (n + 1) l).
  rewrite (lc_prefixes a pre _ p 0 g (n + 1) l bs _ F W (code_from_0 _ _ C) Hp). rewrite Z.add_0_l. f_equal.
Qed.
(** The state in which the handler starts. *)
Definition hst (s : st) (p : pfx) (off : Z) : st := mkSt (ar s) (dec_of p off) (dbg s) (icount s + 1) (lastnull s).
Lemma lc_said s pre p bs o k m c s' : fetched E base s pre p bs -> dispatch bs = Some (o, k, m) -> exec1 E o k (hst s p (blen pre + m)) = Err c s' -> c <> E_CONTINUE ->
  loop_complaint E 6 (reset s) = complaint1 E o k c (hst s p (blen pre + m)).
Proof.
  intros Hf Hd Hx Hc. rewrite (lc_whole s pre p bs Hf). destruct Hf as (R & Hp & C). destruct R as [F W PC Hi].
  apply code_from_0 in C. apply code_from_app in C. rewrite Z.add_0_l in C. eapply lc_exec; eauto.
Qed.
(** ** What RME_RunOne prints when it fails *)
Lemma loop_text s pre p bs : fetched E base s pre p bs -> op_loop E 6 (reset s) = op_loop E 6 (mkSt (ar s) (dec_of (mkPfx None false false 0) 0) (dbg s) (icount s + 1) (lastnull s)).
Proof. intros _. reflexivity. Qed.
Lemma do_opcode_reset s : icount s <> 2147483647 -> do_opcode E s = (op_loop E 6 ;;; advance_ip ;;; null_hack E (r_cs (ar s)) (r_ip (ar s)) ;;; trace_dump E (r_cs (ar s)) (r_ip (ar s))) (reset s).
Proof. intros H. destruct s as [a d g n l]. rewrite do_opcode_eq by exact H. reflexivity. Qed.
Lemma begins s : wf_regs (ar s) -> 0 <= icount s < 2147483648 -> exists t, (if dbg s <? 1 then "" else header s) = t /\
  ((dbg s < 1 /\ t = "") \/ (1 <= dbg s /\ exists num lin cs ip, t = line_start num lin cs ip /\ names_place (icount s + 1) (r_cs (ar s)) (r_ip (ar s)) num lin cs ip)).
Proof.
  intros W Hi. eexists. split; [reflexivity|]. destruct (Z.ltb_spec (dbg s) 1); [left; auto|right]. split; [lia|]. do 4 eexists. split; [|apply place_ok; assumption].
  unfold header, line_start. cbn [joined]. rewrite app_empty. reflexivity.
Qed.
End Msgs.
