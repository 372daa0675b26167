(** The REP prefix in the decoder after an instruction: string instructions clear it, all others leave it alone (the warning of C83 and C85). *)
From Coq Require Import String Ascii.
From Verif Require Import Base Cpu Alu Ops Machine Spec SpecOps SpecRun SpecTop SpecStop SpecCodes PBase PMem PRun PFrame PExec PKeep2 PKeep3 PTop PTop2 PTop3 PStop PStop2 PCodes Dump SpecDump PDump TraceText SpecTrace PTrace PTrace2 PTrace4 SpecMsgs PMsgs PMsgs2 PMsgs3 PMsgs4 PMsgs5 PMsgs6 PIStr SpecNames.
Local Open Scope Z_scope.

Section Warn.
Context (E : env).
Definition rk {X} (m : M X) : Prop := forall s v s', m s = Ok v s' -> d_rep (dc s') = d_rep (dc s).
Lemma rk_bind {X Y} (m : M X) (f : X -> M Y) : rk m -> (forall x, rk (f x)) -> rk (bind m f).
Proof. intros H1 H2 s v s' H. unfold bind in H. destruct (m s) as [x s1| | |] eqn:Em; try discriminate. rewrite (H2 _ _ _ _ H). apply (H1 _ _ _ Em). Qed.
Lemma rk_ret {X} (x : X) : rk (ret x). Proof. intros s v s' [= <- <-]. reflexivity. Qed.
Lemma rk_err {X} c : rk (@err X c). Proof. intros s v s' H. discriminate. Qed.
Lemma rk_undef {X} r : rk (@undef X r). Proof. intros s v s' H. discriminate. Qed.
Lemma rk_fuel {X} : rk (fun _ => @Fuel X). Proof. intros s v s' H. discriminate. Qed.
Lemma rk_gets {X} (f : st -> X) : rk (gets f). Proof. intros s v s' [= <- <-]. reflexivity. Qed.
Lemma rk_ar f : rk (upd_ar f). Proof. intros s v s' [= <- <-]. reflexivity. Qed.
Lemma rk_dc f : (forall d, d_rep (f d) = d_rep d) -> rk (upd_dc f). Proof. intros H s v s' [= <- <-]. apply H. Qed.
Lemma rk_hload w p : rk (hload w p). Proof. intros s v s' H. unfold hload in H. destruct (load_bytes _ _ _); [|discriminate]. injection H as <- <-. reflexivity. Qed.
Lemma rk_hstore w p x : rk (hstore w p x). Proof. intros s v s' H. unfold hstore in H. destruct (valid_bytes _ _ _); [|discriminate]. injection H as <- <-. reflexivity. Qed.
Lemma rk_getptr a o : rk (getptr E a o).
Proof. intros s v s' H. unfold getptr in H. cbv zeta in H. destruct (_ <? _); [|discriminate]. destruct (_ && _); [discriminate|]. injection H as <- <-. reflexivity. Qed.
Lemma rk_getseg c : rk (getseg c). Proof. intros s v s' H. unfold getseg in H. destruct (sreg_of _ _); [|discriminate]. injection H as <- <-. reflexivity. Qed.
Lemma rk_chkseg c : rk (chkseg c). Proof. intros s v s' H. unfold chkseg in H. destruct (sreg_of _ _); [|discriminate]. injection H as <- <-. reflexivity. Qed.
Lemma rk_setseg c x : rk (setseg c x). Proof. intros s v s' H. unfold setseg in H. destruct (sreg_set _ _ _); [|discriminate]. injection H as <- <-. reflexivity. Qed.
Lemma rk_io_in w p : rk (io_in E w p). Proof. intros s v s' [= <- <-]. reflexivity. Qed.
Lemma rk_io_out w p x : rk (io_out w p x). Proof. intros s v s' H. inversion H. reflexivity. Qed.
Ltac kstep :=
  lazymatch goal with
  | |- rk (bind _ _) => apply rk_bind; [|intros ?]
  | |- rk (ret _) => apply rk_ret
  | |- rk (err _) => apply rk_err
  | |- rk (undef _) => apply rk_undef
  | |- rk (gets _) => apply rk_gets
  | |- rk (getA _) => apply rk_gets
  | |- rk (getD _) => apply rk_gets
  | |- rk (upd_ar _) => apply rk_ar
  | |- rk (upd_dc _) => apply rk_dc; reflexivity
  | |- rk (hload _ _) => apply rk_hload
  | |- rk (hstore _ _ _) => apply rk_hstore
  | |- rk (getptr _ _ _) => apply rk_getptr
  | |- rk (getseg _) => apply rk_getseg
  | |- rk (chkseg _) => apply rk_chkseg
  | |- rk (setseg _ _) => apply rk_setseg
  | |- rk (io_in _ _ _) => apply rk_io_in
  | |- rk (io_out _ _ _) => apply rk_io_out
  | |- rk (if ?b then _ else _) => destruct b
  | |- rk (let '(_, _) := ?e in _) => destruct e
  | |- rk (match ?e with _ => _ end) => destruct e
  | |- rk (let _ := _ in _) => cbv zeta
  | |- rk (?f _ _ _ _ _ _) => unfold f
  | |- rk (?f _ _ _ _ _) => unfold f
  | |- rk (?f _ _ _ _) => unfold f
  | |- rk (?f _ _ _) => unfold f
  | |- rk (?f _ _) => unfold f
  | |- rk (?f _) => unfold f
  | |- rk ?f => unfold f
  end.
Lemma rk_nocheck : rk (get_modrm_nocheck E).
Proof. intros s v s' H. unfold get_modrm_nocheck in H. assert (K : rk (get_modrm E)) by (repeat kstep). specialize (K s). destruct (get_modrm E s) as [x s1|c s1| |]; try discriminate. apply K with (v := x). congruence. Qed.
Ltac kstep1 := lazymatch goal with |- rk (get_modrm_nocheck _) => apply rk_nocheck | _ => kstep end.
Lemma rk_enter_loop n : rk (enter_loop E n).
Proof. induction n as [|n IH]; cbn [enter_loop]; [apply rk_ret|]. repeat (first [exact IH|kstep1]). Qed.
Lemma rk_str_body o w a b c d : rk (str_body E o w a b c d).
Proof. unfold str_body. destruct o; repeat kstep1. Qed.
Lemma rk_str_loop n : forall o w m a b c d, rk (str_loop E n o w m a b c d).
Proof.
  induction n as [|n IH]; intros; cbn [str_loop]; [apply rk_fuel|].
  repeat (lazymatch goal with |- rk (str_body _ _ _ _ _ _ _) => apply rk_str_body | |- rk (str_loop _ _ _ _ _ _ _ _ _) => apply IH | _ => kstep1 end).
Qed.
Definition repeats (o : opid) : bool := match o with OStr _ _ => true | _ => false end.
Definition interrupts (o : opid) : bool := match o with OInt3 | OIntI | OInto => true | _ => false end.
Lemma rk_exec1 o k : repeats o = false -> interrupts o = false -> is_prefix o = false -> rk (exec1 E o k).
Proof.
  intros H1 H2 H3. destruct o; try discriminate; cbn [exec1];
  repeat (lazymatch goal with |- rk (enter_loop _ _) => apply rk_enter_loop | _ => kstep1 end).
Qed.
Lemma clears o w s v s' : x_str E o w s = Ok v s' -> d_rep (dc s') = 0.
Proof.
  unfold x_str, bind at 1. destruct (opw s) as [ow s1| | |]; try discriminate. cbv zeta.
  unfold bind at 1. destruct (getD d_addr s1) as [a s2| | |]; try discriminate.
  unfold bind at 1. match goal with |- context [match ?m with _ => _ end] => destruct m as [x3 s3| | |]; try discriminate end.
  unfold bind at 1. match goal with |- context [match ?m with _ => _ end] => destruct m as [x4 s4| | |]; try discriminate end.
  unfold bind at 1. match goal with |- context [match ?m with _ => _ end] => destruct m as [x5 s5| | |]; try discriminate end.
  unfold bind at 1. match goal with |- context [match ?m with _ => _ end] => destruct m as [x6 s6| | |]; try discriminate end.
  unfold bind at 1. match goal with |- context [match ?m with _ => _ end] => destruct m as [x7 s7| | |]; try discriminate end.
  unfold bind at 1. match goal with |- context [match ?m with _ => _ end] => destruct m as [x8 s8| | |]; try discriminate end.
  destruct (_ && _); [intros [= <- <-]; reflexivity|].
  unfold bind at 1. match goal with |- context [match ?m with _ => _ end] => destruct m as [x9 s9| | |]; try discriminate end.
  unfold bind at 1. match goal with |- context [match ?m with _ => _ end] => destruct m as [x10 s10| | |]; try discriminate end.
  unfold bind at 1. match goal with |- context [match ?m with _ => _ end] => destruct m as [x11 s11| | |]; try discriminate end.
  intros [= <- <-]. reflexivity.
Qed.
Lemma vector_rep num : polite E -> forall s v s', wf_state s -> call_interrupt E num s = Ok v s' -> d_rep (dc s') = d_rep (dc s).
Proof.
  intros P s v s' W. unfold call_interrupt, bind at 1. destruct (rd E 16 0 (num * 4) s) as [o s1| | |] eqn:R1; try discriminate. pose proof (rd_st _ _ _ _ _ _ _ R1) as ->.
  unfold bind at 1. destruct (rd E 16 0 (num * 4 + 2) s) as [g s2| | |] eqn:R2; try discriminate. pose proof (rd_st _ _ _ _ _ _ _ R2) as ->.
  destruct (_ && _); [discriminate|]. destruct (_ && _).
  - unfold call_hle. destruct (_ =? 0); intros H; inversion H; [reflexivity|]. subst s'. destruct (P (hle (ar s) num) num s W) as (_ & _ & _ & ->). reflexivity.
  - match goal with |- ?m s = _ -> _ => assert (K : rk m) by (repeat kstep1) end. apply K.
Qed.
Lemma exec1_rep o k : polite E -> is_prefix o = false -> forall s v s', wf_state s -> exec1 E o k s = Ok v s' -> d_rep (dc s') = if repeats o then 0 else d_rep (dc s).
Proof.
  intros P Hp s v s' W H. destruct (repeats o) eqn:Hr.
  - destruct o; try discriminate. exact (clears _ _ _ _ _ H).
  - destruct (interrupts o) eqn:Hi; [|exact (rk_exec1 o k Hr Hi Hp s v s' H)]. destruct o; try discriminate; cbn [exec1] in H.
    + exact (vector_rep 3 P s v s' W H).
    + unfold x_int_i, bind in H. assert (K : rk (fetch8 E)) by (repeat kstep1). destruct (fetch8 E s) as [n s1| | |] eqn:Ef; try discriminate. rewrite <- (K s n s1 Ef).
      apply (vector_rep n P s1 v s'); [|exact H]. unfold fetch8, fetch, bind, getA, getD, gets in Ef. destruct (rd E 8 _ _ s) as [b s2| | |] eqn:R; try discriminate. pose proof (rd_st _ _ _ _ _ _ _ R) as ->.
      injection Ef as _ <-. destruct W. constructor; cbn; auto. lia.
    + unfold x_into, bind, getflags, getA, gets in H. destruct (ftest _ _); [exact (vector_rep 4 P s v s' W H)|injection H as <- <-; reflexivity].
Qed.
(** The opcodes of string instructions. *)
Lemma repeats_row b e : ca_op b = Some e -> 0 <= b < 256 -> repeats (e_op e) = existsb (Z.eqb b) string_ops.
Proof.
  intros H Hb. assert (A : forallb (fun b => match ca_op b with Some e => Bool.eqb (repeats (e_op e)) (existsb (Z.eqb b) string_ops) | None => true end) (map Z.of_nat (seq 0 256)) = true) by (vm_compute; reflexivity).
  rewrite forallb_forall in A. specialize (A b). assert (Hin : In b (map Z.of_nat (seq 0 256))). { apply in_map_iff. exists (Z.to_nat b). split; [lia|]. apply in_seq. lia. }
  specialize (A Hin). rewrite H in A. apply Bool.eqb_prop, A.
Qed.
Lemma repeats_row0F b e : ca_op0F b = Some e -> repeats (e_op e) = false.
Proof.
  intros H. pose proof (PTop.ca_table (fun e => negb (repeats (e_op e))) caOperations0F b e ltac:(vm_compute; reflexivity) H) as K. cbn beta in K. destruct (repeats _); [discriminate|reflexivity].
Qed.
Lemma dispatch_repeats bs o k m : (forall b, In b bs -> 0 <= b < 256) -> dispatch bs = Some (o, k, m) -> repeats o = existsb (Z.eqb (hd 0 bs)) string_ops.
Proof.
  intros Hb. destruct bs as [|b t]; [discriminate|]. cbn [dispatch hd]. specialize (Hb b (or_introl eq_refl)). destruct (b =? 241); [discriminate|]. destruct (Z.eqb_spec b 15) as [->|H15].
  - destruct t as [|b2 t]; [discriminate|]. destruct (ca_op0F b2) eqn:He; [|discriminate]. intros [= <- <- <-]. rewrite (repeats_row0F _ _ He). reflexivity.
  - destruct (ca_op b) as [e|] eqn:He; [|discriminate]. rewrite <- (repeats_row b e He Hb). destruct (e_names e); [destruct t as [|x t]; [discriminate|]|]; intros [= <- <- <-]; reflexivity.
Qed.
Context (Q : quiet_host E).
Lemma loop_rep base s pre p bs u s2 : polite E -> fetched E base s pre p bs -> wf_state s -> opcode_read bs -> op_loop E 6 (reset s) = Ok u s2 ->
  d_rep (dc s2) = if existsb (Z.eqb (hd 0 bs)) string_ops then 0 else p_rep p.
Proof.
  intros P Hf W Ho El. pose proof Hf as (Rd & Hp & C). destruct Rd as [F Wr PC Hc]. pose proof (code_bytes E base _ _ _ _ Hf) as Hb.
  destruct (dispatch bs) as [[[o k] m]|] eqn:Hd.
  - assert (Hl : op_loop E 6 (reset s) = match exec1 E o k (hst s p (blen pre + m)) with Err c s' => if c =? E_CONTINUE then op_loop E (5 - List.length pre) s' else Err c s' | x => x end).
    { destruct s as [a d g n l]. cbn [ar dc dbg icount lastnull] in *. change (reset (mkSt a d g n l)) with (mkSt a (dec_of (mkPfx None false false 0) 0) g (n + 1) l).
      rewrite (op_loop_exec E base a pre p g (n + 1) l bs o k m F Wr C Hp Hd). reflexivity. }
    destruct (dispatch_class bs o k m Ho Hb Hd) as (Hcl & _ & Hm & _). pose proof (cl_pre _ _ Hcl) as Hpre. rewrite Hl in El.
    assert (Wh : wf_state (hst s p (blen pre + m))).
    { pose proof (prefixes_ok _ _ Hp) as Hpo. unfold pfx_ok in Hpo. destruct W. constructor; cbn [hst ar dc dec_of d_ipoff d_seg d_rep]; auto; [unfold blen; lia| |].
      - destruct (p_seg p); [right; lia|left; reflexivity].
      - exact (pfx_rep_cases _ _ Hp). }
    destruct (exec1 E o k (hst s p (blen pre + m))) as [u' s'|c s'|r|] eqn:Hx; try discriminate.
    + injection El as _ <-. rewrite (exec1_rep o k P Hpre _ _ _ Wh Hx). rewrite (dispatch_repeats bs o k m Hb Hd). reflexivity.
    + destruct (Z.eqb_spec c E_CONTINUE) as [->|]; [|discriminate]. exfalso.
      assert (K : says (fun c => c <> E_CONTINUE) (exec1 E o k)) by (apply says_exec1; try exact Q; try discriminate; rewrite Hpre; discriminate).
      assert (Hby : byte_memory (hst s p (blen pre + m))) by exact (ws_bytes _ W). exact (says_not _ _ _ _ K Hby Hx).
  - exfalso. apply dispatch_none in Hd; [|exact Ho|exact Hb]. destruct bs as [|b t]; [destruct Ho|]. pose proof Ho as (Hnp & Hn1 & _).
    assert (Cases : ca_op b = None \/ (b = 15 /\ exists b2 t2, t = b2 :: t2 /\ ca_op0F b2 = None)).
    { destruct (Z.eq_dec b 15) as [->|H15].
      - right. split; [reflexivity|]. destruct t as [|b2 t2]; [destruct Hd as [Hd|[_ []]]; exfalso; cbn in Hd; intuition congruence|]. exists b2, t2. split; [reflexivity|].
        assert (Hd0 : dispatch (15 :: b2 :: t2) = None) by (apply dispatch_none; [split; [exact Hnp|split; [exact Hn1|discriminate]]|exact Hb|exact Hd]).
        cbn [dispatch] in Hd0. change (15 =? 241) with false in Hd0. cbv iota in Hd0. change (15 =? 15) with true in Hd0. cbv iota in Hd0. destruct (ca_op0F b2); [discriminate|reflexivity].
      - left. destruct Hd as [Hd|[Hd _]]; [|contradiction]. pose proof (idx_ok _ PTop3.row1_ok b (Hb b (or_introl eq_refl))) as Hrow. unfold PTop3.row1 in Hrow.
        apply mem_In in Hd. destruct (ca_op b); [rewrite Hd in Hrow; discriminate Hrow|reflexivity]. }
    destruct Cases as [Hn|(-> & b2 & t2 & -> & Hn)].
    + destruct (op_says E base s pre p b t Hf Hn1 Hn) as [H1 _]. congruence.
    + destruct (op2_says E base s pre p b2 t2 Hf Hn) as [H1 _]. congruence.
Qed.
Lemma code_shorter a l t : code a (l ++ t)%list -> code a l.
Proof.
  intros [C1 C2]. split; [unfold blen in *; rewrite app_length in C1; lia|]. intros i b Hi. apply C2. rewrite nth_error_app1; [exact Hi|]. apply nth_error_Some. congruence.
Qed.
(** The opcode in the warning is the byte behind the prefixes. *)
Lemma last_code pre bs : forall p p' tl, prefixes_from p pre = Some p' -> opcode_read bs -> last_opcode (pre ++ bs ++ tl)%list = hd 0 bs.
Proof.
  intros p p' tl. revert p. induction pre as [|b pre IH]; intros p H Ho; cbn [app].
  - destruct bs as [|b t]; [destruct Ho|]. destruct Ho as (Hn & _). cbn [app last_opcode hd]. destruct (existsb (Z.eqb b) _) eqn:Hx; [|reflexivity]. exfalso. apply Hn. apply existsb_exists in Hx.
    destruct Hx as (x & Hi & He). apply Z.eqb_eq in He. subst x. unfold prefix_byte. cbn [In] in *. tauto.
  - cbn [prefixes_from] in H. destruct (add_prefix p b) as [p1|] eqn:E1; [|discriminate]. cbn [last_opcode].
    replace (existsb (Z.eqb b) [38; 46; 54; 62; 100; 101; 102; 103; 242; 243]) with true; [exact (IH p1 H Ho)|]. symmetry. apply existsb_exists. exists b. split; [|apply Z.eqb_refl].
    destruct (add_prefix_cases _ _ _ E1) as [(k & Hk & _)|[(-> & _)|[(-> & _)|(Hx & _)]]]; cbn [In]; [apply seg_prefix_cases in Hk|..]; lia.
Qed.
Lemma last_same b (Nb : existsb (Z.eqb b) [38; 46; 54; 62; 100; 101; 102; 103; 242; 243] = false) l1 l2 pre : last_opcode (pre ++ b :: l1)%list = last_opcode (pre ++ b :: l2)%list.
Proof. induction pre as [|x pre IH]; cbn [app last_opcode]; [rewrite Nb; reflexivity|]. rewrite IH. reflexivity. Qed.
Lemma warned base s pre p bs u s2 s3 : polite E -> fetched E base s pre p bs -> wf_state s -> opcode_read bs -> op_loop E 6 (reset s) = Ok u s2 -> dc s3 = dc s2 ->
  warning p bs (warning_t E s s3).
Proof.
  intros P Hf W Ho El Ed. pose proof (loop_rep base s pre p bs u s2 P Hf W Ho El) as Hr. pose proof Hf as ([F Wr PC Hc] & Hp & C). unfold warning_t. rewrite Ed, Hr.
  pose proof (prefixes_length _ _ Hp) as Hpl. destruct (existsb _ _) eqn:Hx.
  - left. apply existsb_exists in Hx. destruct Hx as (x & Hi & He). apply Z.eqb_eq in He. subst x. auto.
  - assert (Hn : ~ In (hd 0 bs) string_ops). { intros Hi. assert (existsb (Z.eqb (hd 0 bs)) string_ops = true) by (apply existsb_exists; exists (hd 0 bs); split; [exact Hi|apply Z.eqb_refl]). congruence. }
    destruct (Z.eqb_spec (p_rep p) 0) as [H0|H0]; [left; auto|right]. split; [exact H0|]. split; [exact Hn|].
    assert (Hop : last_opcode (window E s) = hd 0 bs).
    { destruct bs as [|b t]; [destruct Ho|]. assert (C1 : code (ar s) (pre ++ [b])%list) by (apply (code_shorter _ _ t); rewrite <- app_assoc; exact C).
      destruct (window_code E base s (pre ++ [b])%list F W C1 ltac:(rewrite app_length; cbn [List.length]; lia)) as (tl & Ew & _). rewrite Ew, <- app_assoc.
      rewrite <- (last_code pre (b :: t) _ _ tl Hp Ho). 
      assert (Nb : existsb (Z.eqb b) [38; 46; 54; 62; 100; 101; 102; 103; 242; 243] = false).
      { apply not_true_iff_false. intros Hy. destruct Ho as (Hnp & _). apply Hnp. apply existsb_exists in Hy. destruct Hy as (x & Hi & He). apply Z.eqb_eq in He. subst x. unfold prefix_byte. cbn [In] in *. tauto. }
      exact (last_same b Nb (t ++ tl)%list tl pre) || exact (eq_sym (last_same b Nb (t ++ tl)%list tl pre)). }
    rewrite Hop. pose proof (code_bytes E base _ _ _ _ Hf) as Hb.
    assert (Hx2 : forall v, 0 <= v < 256 -> hex_text 2 v (fmt_x 2 v)) by (intros; apply fmt_x_ok; [lia|]; change (16 ^ Z.of_nat 2) with 256; lia).
    exists (fmt_x 2 (p_rep p)), (fmt_x 2 (hd 0 bs)). split; [apply Hx2; destruct (pfx_rep_cases _ _ Hp) as [K|[K|K]]; rewrite K; lia|]. split; [apply Hx2; destruct bs; [destruct Ho|apply Hb; left; reflexivity]|].
    cbn [joined]. rewrite app_empty. reflexivity.
Qed.
Lemma dump_st n : forall cs i s u s', dump_bytes E n cs i s = Ok u s' -> s' = s.
Proof.
  induction n as [|n IH]; intros cs i s u s'; cbn [dump_bytes]; [intros H; inversion H; reflexivity|]. unfold bind.
  destruct (rd E 8 cs i s) as [b s1|c1 s1|r|] eqn:R; try discriminate. pose proof (rd_st _ _ _ _ _ _ _ R) as ->. apply IH.
Qed.
Lemma null_dc cs ip s u s' : null_hack E cs ip s = Ok u s' -> dc s' = dc s.
Proof.
  unfold null_hack, bind, getD, gets. destruct (_ =? 2); [|intros [= <- <-]; reflexivity].
  destruct (rd E 8 cs ip s) as [b1 s1|c1 s1|r|] eqn:R1; try discriminate. pose proof (rd_st _ _ _ _ _ _ _ R1) as ->.
  destruct (rd E 8 cs (ip + 1) s) as [b2 s2|c2 s2|r|] eqn:R2; try discriminate. pose proof (rd_st _ _ _ _ _ _ _ R2) as ->.
  destruct (_ && _); [|intros [= <- <-]; reflexivity]. destruct (lastnull s); [discriminate|]. intros [= <- <-]; reflexivity.
Qed.
Lemma do_opcode_warned base s pre p bs s1 : polite E -> fetched E base s pre p bs -> wf_state s -> opcode_read bs -> do_opcode E s = Ok tt s1 -> warning p bs (warning_t E s s1).
Proof.
  intros P Hf W Ho. pose proof Hf as ([F Wr PC Hc] & _). rewrite (do_opcode_reset E s Hc). unfold bind at 1. destruct (op_loop E 6 (reset s)) as [u s2|c s2|r|] eqn:El; try discriminate.
  intros H. apply (warned base s pre p bs u s2 s1 P Hf W Ho El). revert H.
  unfold bind at 1. destruct (advance_ip s2) as [u3 s3|c s3|r|] eqn:Ea; try discriminate. unfold bind at 1. destruct (null_hack E _ _ s3) as [u4 s4|c s4|r|] eqn:En; try discriminate. intros Ht.
  assert (D3 : dc s3 = dc s2). { revert Ea. unfold advance_ip, bind, getD, getA, gets. destruct (d_noip (dc s2)); intros H; inversion H; reflexivity. }
  assert (D4 : dc s4 = dc s3).
  { exact (null_dc _ _ _ _ _ En). }
  rewrite <- D3, <- D4. apply f_equal. revert Ht. unfold trace_dump, bind, gets, getD, gets. destruct (1 <=? dbg s4); [|intros H; inversion H; reflexivity]. destruct (_ <? 0); [discriminate|]. apply dump_st.
Qed.
End Warn.
