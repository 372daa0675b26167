(** Proofs about the trace: the operand shown in the line of an instruction. *)
From Coq Require Import String Ascii.
From Verif Require Import Base Cpu Alu Ops Machine Spec SpecOps SpecOps2 SpecSys SpecRun SpecTop SpecCodes SpecLen SpecStop SpecEa PBase PMem PRun PFrame PAlu PExec PIAlu PIAlu2 PStep PIInt PKeep PKeep2 PKeep3 PTop PTop2 PTop3 PStop PStop2 PLen PLen2 PNative10 PCodes Dump SpecDump PDump TraceText SpecTrace PTrace PTrace2 PTrace3.
Local Open Scope string_scope.
Local Open Scope Z_scope.

(** ** Prefixes *)
Definition fits (x : tctx) (p : pfx) : Prop := x_seg x = p_seg p /\ x_os x = p_os p /\ x_as x = p_as p.
Lemma prefix_cases p b p' : add_prefix p b = Some p' -> In b [38; 46; 54; 62; 100; 101; 102; 103; 242; 243].
Proof.
  unfold add_prefix, seg_prefix. cbn [In]. destruct (Z.eqb_spec b 102) as [->|N1]; [auto 12|]. destruct (Z.eqb_spec b 103) as [->|N2]; [auto 12|]. destruct (Z.eqb_spec b 242) as [->|N3]; [auto 12|]. destruct (Z.eqb_spec b 243) as [->|N4]; [auto 12|].
  destruct b as [|q|q]; try discriminate. do 7 (destruct q as [q|q|]; try discriminate; try (intros _; auto 12; fail)).
Qed.
Lemma prefix_text p b p' x l acc : add_prefix p b = Some p' -> fits x p -> nc acc = true ->
  exists n t x', op_text b l = Some n /\ prefix_t x b = Some (t, x') /\ fits x' p' /\ nc n = true /\ nc t = true.
Proof.
  intros H (F1 & F2 & F3) Ha. pose proof (prefix_cases p b p' H) as C. unfold fits. cbn [In] in C.
  repeat (destruct C as [<-|C]; [|]); try contradiction; revert H; unfold add_prefix; cbn [seg_prefix Z.eqb Pos.eqb orb].
  all: lazymatch goal with
  | |- (if ?b then _ else _) = _ -> _ => destruct b eqn:Es; try discriminate; intros [= <-]
  | |- match ?o with _ => _ end = _ -> _ => destruct o eqn:Es; [discriminate|]; intros [= <-]
  end; do 3 eexists; (split; [reflexivity|]; split; [reflexivity|]; cbn [x_seg x_os x_as p_seg p_os p_as]; auto).
Qed.
Lemma text_prefix pre : forall p p' x acc l fuel, prefixes_from p pre = Some p' -> fits x p -> nc acc = true -> (List.length pre <= fuel)%nat ->
  exists x' acc', text fuel x acc (pre ++ l) = text (fuel - List.length pre) x' acc' l /\ fits x' p' /\ nc acc' = true.
Proof.
  induction pre as [|b pre IH]; intros p p' x acc l fuel H F Ha Hl; cbn [prefixes_from List.length app] in *.
  - injection H as <-. exists x, acc. rewrite Nat.sub_0_r. auto.
  - destruct (add_prefix p b) as [p1|] eqn:E1; [|discriminate]. destruct fuel as [|fuel]; [lia|]. destruct (prefix_text p b p1 x (pre ++ l) acc E1 F Ha) as (n & t & x' & E2 & E3 & F1 & N1 & N2).
    cbn [text]. rewrite E2, E3. apply (IH p1); auto; [|lia]. rewrite !nc_app, N1, N2, Ha. destruct (_ =? _)%nat; reflexivity.
Qed.
(** ** The instruction *)
Lemma offset_more p md m a t o r tl : real_offset p md m a t = Some (o, r) -> real_offset p md m a (t ++ tl) = Some (o, (r ++ tl)%list).
Proof.
  unfold real_offset, disp, disp32, dword. destruct (p_as p); [destruct (md =? 0); [destruct (m =? 4); [|destruct (m =? 5)]|destruct (md =? 1); [|destruct (md =? 2)]]|destruct (md =? 1); [|destruct ((md =? 2) || (m =? 6))]].
  all: repeat (match goal with |- context [match ?l with [] => _ | _ :: _ => _ end] => is_var l; destruct l; cbn [app]; try discriminate end).
  all: try (destruct (m =? 4)); repeat (match goal with |- context [match ?l with [] => _ | _ :: _ => _ end] => is_var l; destruct l; cbn [app]; try discriminate end).
  all: try (intros [= <- <-]; reflexivity).
  all: match goal with |- context [if ?b then _ else _] => destruct b end; repeat (match goal with |- context [match ?l with [] => _ | _ :: _ => _ end] => is_var l; destruct l; cbn [app]; try discriminate end); try (intros [= <- <-]; reflexivity).
Qed.
Lemma offset_length p md m a t o r : real_offset p md m a t = Some (o, r) -> (List.length t <= List.length r + 5)%nat.
Proof.
  unfold real_offset, disp, disp32, dword. destruct (p_as p); [destruct (md =? 0); [destruct (m =? 4); [|destruct (m =? 5)]|destruct (md =? 1); [|destruct (md =? 2)]]|destruct (md =? 1); [|destruct ((md =? 2) || (m =? 6))]].
  all: repeat (match goal with |- context [match ?l with [] => _ | _ :: _ => _ end] => is_var l; destruct l; cbn [app]; try discriminate end).
  all: try (destruct (m =? 4)); repeat (match goal with |- context [match ?l with [] => _ | _ :: _ => _ end] => is_var l; destruct l; cbn [app]; try discriminate end).
  all: try (intros [= <- <-]; cbn [List.length]; lia).
  all: match goal with |- context [if ?b then _ else _] => destruct b end; repeat (match goal with |- context [match ?l with [] => _ | _ :: _ => _ end] => is_var l; destruct l; cbn [app]; try discriminate end); try (intros [= <- <-]; cbn [List.length]; lia).
Qed.
Lemma window_range E base s : flat E base (ar s) -> wf_state s -> byte_list (window E s).
Proof.
  intros F W b Hb. apply in_map_iff in Hb. destruct Hb as (i & <- & _). rewrite (peek_flat E base) by (auto; apply W). unfold byte. destruct (hmem (ar s) _) eqn:Hh; [eapply ws_bytes; eauto|lia].
Qed.
Lemma firstn_nth (l : list Z) : forall n i, (i < n)%nat -> nth i (firstn n l) 0 = nth i l 0.
Proof. induction l as [|b l IH]; intros [|n] [|i] H; cbn [firstn nth]; try lia; auto. apply IH. lia. Qed.
Lemma window_code E base s l : flat E base (ar s) -> wf_state s -> code (ar s) l -> (List.length l <= 20)%nat -> exists tl, window E s = (l ++ tl)%list /\ List.length tl = (20 - List.length l)%nat.
Proof.
  intros F W [C1 C2] Hl. exists (skipn (List.length l) (window E s)).
  assert (Lw : List.length (window E s) = 20%nat) by (unfold window; rewrite map_length, seq_length; reflexivity).
  split; [|rewrite skipn_length, Lw; reflexivity]. rewrite <- (firstn_skipn (List.length l) (window E s)) at 1. f_equal.
  apply nth_ext with (d := 0) (d' := 0); [rewrite firstn_length, Lw; lia|]. rewrite firstn_length, Lw. intros i Hi. assert (Hi' : (i < List.length l)%nat) by lia.
  rewrite firstn_nth by exact Hi'. unfold window.
  rewrite (nth_indep _ 0 (peek E s (r_cs (ar s)) (wrap 16 (r_ip (ar s) + Z.of_nat 0)))) by (rewrite map_length, seq_length; lia).
  rewrite (map_nth (fun i => peek E s (r_cs (ar s)) (wrap 16 (r_ip (ar s) + Z.of_nat i)))). rewrite seq_nth by lia. cbn [Nat.add].
  destruct (nth_error l i) as [b|] eqn:En; [|apply nth_error_None in En; lia]. rewrite (nth_error_nth _ _ _ En). rewrite <- (C2 _ _ En).
  rewrite (peek_flat E base) by (auto; apply W). f_equal. pose proof (wf_ip _ (ws_regs _ W)) as Hip. unfold inrange, blen in *. unfold wrap. change (2 ^ 16) with 65536 in *.
  rewrite !Z.mod_mod by lia. rewrite Z.mod_small by lia. unfold pc, lin. lia.
Qed.
(** What one RME_RunOne prints at an ordinary instruction. *)
Lemma line_any E s s1 : polite E -> wf_state s -> normal_pc (ar s) -> 0 <= icount s < 2147483648 -> 1 <= dbg s -> run_one E s = Ok tt s1 ->
  (do_opcode E s = Ok tt s1 /\ exists num lin cs ip bytes,
     run_prints E s = level2 s ++ line num lin cs ip (middle E s s1) bytes /\ names_place (icount s1) (r_cs (ar s)) (r_ip (ar s)) num lin cs ip /\ plain bytes = true) \/
  ((exists s2, do_opcode E s = Err E_DIVERR s2) /\ exists num lin cs ip, run_prints E s = level2 s ++ fault_line num lin cs ip /\ names_place (icount s1) (r_cs (ar s)) (r_ip (ar s)) num lin cs ip).
Proof.
  intros P W PC Hi Hd Hr. pose proof (ws_regs _ W) as Wr.
  pose proof (run_one_general E P s W) as G. rewrite Hr in G. destruct G as (G & Nm & HC).
  assert (Hm : (r_ip (ar s) =? 65535) && (r_cs (ar s) =? 65535) = false) by (unfold magic in Nm; lia).
  assert (Hh : (r_cs (ar s) =? 47104) && (r_ip (ar s) <? 256) = false) by (unfold normal_pc in PC; lia).
  assert (Hc : icount s1 = icount s + 1) by (destruct HC as [[_ Hc]|[X _]]; [exact Hc|unfold hle_entry_pc in X; lia]).
  unfold run_prints. cbv zeta. rewrite Hm, Hh. replace (dbg s <? 1) with false by lia. cbv iota. change (if 2 <=? dbg s then dump_regs (ar s) else "") with (level2 s).
  revert Hr. unfold run_one. rewrite Hm, Hh. intros Hr. destruct (do_opcode E s) as [[] s2|c s2|r|] eqn:Eo; try discriminate Hr.
  - injection Hr as ->. left. split; [reflexivity|]. rewrite rest_line. do 5 eexists. split; [reflexivity|]. split; [rewrite Hc; apply place_ok; [exact Wr|lia]|]. apply plain_bytes.
  - destruct (Z.eqb_spec c E_DIVERR) as [->|]; [|discriminate Hr]. right. split; [exists s2; reflexivity|].
    exists (pad_i 8 (icount s + 1)), (fmt_x 0 (r_cs (ar s) * 16 + r_ip (ar s))), (fmt_x 4 (r_cs (ar s))), (fmt_x 4 (r_ip (ar s))).
    split; [rewrite (diverr_text E s _ Eo); cbn [append]; change (E_DIVERR =? E_DIVERR) with true; cbv iota; rewrite (fault_shown s Hd); reflexivity|]. rewrite Hc. apply place_ok; [exact Wr|lia].
Qed.
Lemma nc_op_text op l n : op_text op l = Some n -> nc n = true.
Proof.
  unfold op_text. assert (T : forallb (fun e => match e with Some (a, b) => nc a && nc b | None => true end) op_names = true) by (vm_compute; reflexivity).
  destruct (nth_in_or_default (Z.to_nat op) op_names None) as [I| ->]; [|discriminate]. rewrite forallb_forall in T. apply T in I. destruct (nth _ _ _) as [[a b]|]; [|discriminate].
  apply andb_true_iff in I. destruct I as [Ia Ib]. destruct (sub_names op) as [ns|] eqn:Es; [|intros Hx; replace n with (a ++ " (" ++ b ++ ")") by congruence; rewrite !nc_app, Ia, Ib; reflexivity].
  destruct l as [|c l]; [discriminate|]. intros Hx. replace n with (name_of ns ((c / 8) mod 8) ++ " (" ++ b ++ ")") by congruence. rewrite !nc_app, Ib, nc_name; [reflexivity|]. revert Es. unfold sub_names.
  repeat match goal with |- (if ?b then _ else _) = _ -> _ => destruct b; [intros [= <-]; reflexivity|] end. discriminate.
Qed.
Lemma nc_name0F b n : op_names0F b = Some n -> nc n = true.
Proof. unfold op_names0F. repeat match goal with |- (if ?b then _ else _) = _ -> _ => destruct b; [intros [= <-]; reflexivity|] end. discriminate. Qed.
(** The text of an instruction with a memory operand. *)
Lemma text_operand x acc fuel bs wide t b u mt r' tl : byte_list bs -> nc acc = true -> (1 <= fuel)%nat ->
  has_modrm bs = Some (wide, t) -> (forall q, bs <> 130 :: q) -> (forall q, bs <> 15 :: 186 :: q) -> t = b :: u -> b / 64 <> 3 -> mem_t x (b / 64) (b mod 8) (u ++ tl)%list = Some (mt, r') -> (4 <= List.length r')%nat ->
  exists A B q, text fuel x acc (bs ++ tl)%list = Some (A ++ mt ++ B, q) /\ nc A = true.
Proof.
  intros Hb Ha Hf Hm N1 N2 -> Hmd Hmt Hl. destruct fuel as [|fuel]; [lia|]. destruct bs as [|op bs]; [discriminate|]. cbn [app text].
  assert (Hop : 0 <= op < 256) by (apply Hb; left; reflexivity). destruct (Z.eq_dec op 15) as [->|H15].
  - destruct bs as [|op2 bs]; [discriminate|]. assert (H186 : op2 <> 186) by (intros ->; apply (N2 bs); reflexivity). destruct (modrm_ops0F op2 bs wide _ H186 Hm) as [<- Hin].
    change (op_text 15 ((op2 :: b :: u) ++ tl)%list) with (Some "Ext (0F)"). cbv iota zeta. change (prefix_t x 15) with (@None (string * tctx)). cbv iota.
    assert (En : exists n, op_names0F op2 = Some n) by (cbn [In shown_ops0F] in Hin; repeat (destruct Hin as [<-|Hin]; [eexists; reflexivity|]); contradiction). destruct En as [n En].
    destruct (oper_handler0F x op2 Hin b (u ++ tl)%list mt r' Hmd Hmt Hl) as (A & B & q & Eh & Na). unfold handler. change (15 =? 15) with true. cbv iota. cbn [app]. rewrite En. unfold then_, say. rewrite Eh.
    eexists ((acc ++ (if (String.length acc =? 0)%nat then "" else " ") ++ "Ext (0F)") ++ (" " ++ n) ++ A), B, q. split; [rewrite !app_assoc_s; reflexivity|].
    rewrite !nc_app, Ha, Na, (nc_name0F _ _ En). destruct (_ =? _)%nat; reflexivity.
  - assert (H130 : op <> 130) by (intros ->; apply (N1 bs); reflexivity). destruct (modrm_ops op bs wide _ Hop H15 H130 Hm) as [<- Hin].
    assert (Ep : prefix_t x op = None /\ exists n, op_text op ((b :: u) ++ tl)%list = Some n) by (cbn [In shown_ops] in Hin; repeat (destruct Hin as [<-|Hin]; [split; [reflexivity|eexists; reflexivity]|]); contradiction).
    destruct Ep as (Ep & n & En). rewrite En, Ep. cbv zeta. destruct (oper_handler x op Hin b (u ++ tl)%list mt r' Hmd Hmt Hl) as (A & B & q & Eh & Na). cbn [app]. rewrite Eh.
    exists ((acc ++ (if (String.length acc =? 0)%nat then "" else " ") ++ n) ++ A), B, q. split; [rewrite !app_assoc_s; reflexivity|].
    rewrite !nc_app, Ha, Na, (nc_op_text _ _ _ En). destruct (_ =? _)%nat; reflexivity.
Qed.

Lemma plain_no_dollar t : clean t = true -> has_char "$" t = false.
Proof.
  intros H. unfold has_char. apply negb_false_iff. revert H. apply every_imp. intros c. unfold text_char. rewrite andb_true_iff, Ascii.eqb_sym. tauto.
Qed.
Lemma seg_name n : 0 <= n < 6 -> exists a b, name_of names_seg n = String a (String b "") /\ Ascii.eqb a ":" = false /\ Ascii.eqb b ":" = false /\
  forall A, lookup_text (String a (String b "")) (segments A) = Some (sreg n A).
Proof.
  intros H. assert (C : n = 0 \/ n = 1 \/ n = 2 \/ n = 3 \/ n = 4 \/ n = 5) by lia.
  destruct C as [->|[->|[->|[->|[->| ->]]]]]; do 2 eexists; (split; [reflexivity|]; split; [reflexivity|]; split; [reflexivity|]; intros A; reflexivity).
Qed.
Lemma prefix_seg pre : forall p p', prefixes_from p pre = Some p' -> (forall n, p_seg p = Some n -> 0 <= n < 6) -> forall n, p_seg p' = Some n -> 0 <= n < 6.
Proof.
  induction pre as [|b pre IH]; intros p p' H Hp; cbn [prefixes_from] in H; [injection H as <-; exact Hp|]. destruct (add_prefix p b) as [p1|] eqn:E1; [|discriminate]. apply (IH p1 p' H).
  revert E1. unfold add_prefix. destruct (seg_prefix b) as [k|] eqn:Es.
  - destruct (p_seg p); [discriminate|]. intros [= <-] n [= <-]. revert Es. unfold seg_prefix. destruct b as [|q|q]; try discriminate. do 7 (destruct q as [q|q|]; try discriminate; try (intros [= <-]; lia)).
  - repeat match goal with |- context [if ?b then _ else _] => destruct b end; try discriminate; intros [= <-]; exact Hp.
Qed.
(** The text in the middle of the line names the address of the operand, unless it was cut. *)
Lemma middle_operand E base s pre p bs s1 wide t rg X rest : fetched E base s pre p bs -> wf_state s ->
  has_modrm bs = Some (wide, t) -> (forall q, bs <> 130 :: q) -> (forall q, bs <> 15 :: 186 :: q) -> real_address p (ar s) t = Some (rg, X, rest) -> blen rest <= 4 ->
  has_char "$" (middle E s s1) = true \/
  exists sg e v o, shown_operand (middle E s s1) = Some (sg, e) /\ lookup_text sg (segments (ar s)) = Some v /\ offset_value (ar s) e = Some o /\ low 32 (16 * v + o) = X.
Proof.
  intros Hf W Hm N1 N2 Hr Hrest. pose proof Hf as ([F Wr PC _] & Hp & C). pose proof (prefixes_length _ _ Hp) as Hpl.
  destruct t as [|b u]; [discriminate|]. cbn [real_address] in Hr. destruct (Z.eqb_spec (b / 64) 3) as [|Hmd]; [discriminate|].
  destruct (real_offset p (b / 64) (b mod 8) (ar s) u) as [[o r]|] eqn:Ho; [|discriminate]. injection Hr as <- <- <-.
  pose proof (offset_length _ _ _ _ _ _ _ Ho) as Hlen. unfold blen in Hrest.
  pose proof (code_bytes E base _ _ _ _ Hf) as Hbb.
  assert (Hbs : exists h, bs = (h ++ b :: u)%list /\ (List.length h <= 2)%nat).
  { destruct bs as [|op bs]; [discriminate|]. destruct (Z.eq_dec op 15) as [->|H15].
    - destruct bs as [|op2 bs]; [discriminate|]. destruct (modrm_ops0F op2 bs wide _ ltac:(intros ->; apply (N2 bs); reflexivity) Hm) as [<- _]. exists [15; op2]. split; [reflexivity|cbn; lia].
    - destruct (modrm_ops op bs wide _ (Hbb op (or_introl eq_refl)) H15 ltac:(intros ->; apply (N1 bs); reflexivity) Hm) as [<- _]. exists [op]. split; [reflexivity|cbn; lia]. }
  destruct Hbs as (h & Ebs & Hh). assert (Lb : (List.length (pre ++ bs) <= 16)%nat) by (rewrite Ebs, !app_length; cbn [List.length]; lia).
  destruct (window_code E base s (pre ++ bs) F W C ltac:(lia)) as (tl & Ew & Lt).
  assert (Hwb : byte_list (window E s)) by (apply (window_range E base); auto).
  assert (Hub : byte_list (u ++ tl)%list). { intros c Hc. apply Hwb. rewrite Ew, Ebs. apply in_app_iff in Hc. rewrite !in_app_iff. cbn [In]. tauto. }
  assert (B0 : 0 <= b < 256) by (apply Hbb; rewrite Ebs; apply in_app_iff; right; left; reflexivity).
  unfold middle, debug_string. rewrite Ew, <- app_assoc.
  destruct (text_prefix pre (mkPfx None false false 0) p (ctx0 s s1) "" (bs ++ tl)%list 6 Hp ltac:(repeat split) eq_refl ltac:(lia)) as (x & acc & Et & (Fx1 & Fx2 & Fx3) & Na). rewrite Et.
  destruct (mem_value x p (ar s) (b / 64) (b mod 8) (u ++ tl)%list o (r ++ tl)%list Fx1 Fx3 Hub ltac:(lia) ltac:(lia) (offset_more _ _ _ _ _ _ _ tl Ho)) as (e & Em & Ne & Eo).
  destruct (text_operand x acc (6 - List.length pre) bs wide (b :: u) b u _ _ tl Hbb Na ltac:(lia) Hm N1 N2 eq_refl Hmd Em ltac:(rewrite app_length; lia)) as (A & B & q & Ett & NA). rewrite Ett.
  unfold cut. destruct (_ <? 64)%nat.
  2:{ left. unfold has_char. apply negb_true_iff. rewrite !every_app. match goal with |- ?a && (_ && (_ && every ?P "$")) = false => change (every P "$") with false; rewrite !andb_false_r; reflexivity end. }
  right.
  match goal with |- context [if d_rep (dc s1) =? 0 then ?a else ?b] => assert (NP : nc (if d_rep (dc s1) =? 0 then a else b) = true) by (destruct (d_rep (dc s1) =? 0); [reflexivity|rewrite !nc_app, !nc_hex; reflexivity]); revert NP; generalize (if d_rep (dc s1) =? 0 then a else b); intros PP NP end.
  unfold open_t, seg_t. rewrite Fx1. change (match p_seg p with Some n => n | None => if negb (b / 64 =? 0) && ((b mod 8 =? 2) || (b mod 8 =? 3) || (b mod 8 =? 6)) then 2 else 3 end) with (real_sreg p (b / 64) (b mod 8)).
  assert (Hsr : 0 <= real_sreg p (b / 64) (b mod 8) < 6).
  { unfold real_sreg. destruct (p_seg p) as [n|] eqn:Es; [apply (prefix_seg pre _ _ Hp ltac:(discriminate) n Es)|destruct (_ && _); lia]. }
  destruct (seg_name _ Hsr) as (c1 & c2 & -> & Hc1 & Hc2 & Hlk).
  exists (String c1 (String c2 "")), e, (sreg (real_sreg p (b / 64) (b mod 8)) (ar s)), o. split; [|split; [apply Hlk|split; [exact Eo|reflexivity]]].
  rewrite !app_assoc_s. cbn [append].
  match goal with |- shown_operand (?P ++ String " " (A ++ String " " (String c1 (String c2 (String ":" (String "[" ?R)))))) = _ =>
    replace (P ++ String " " (A ++ String " " (String c1 (String c2 (String ":" (String "[" R)))))) with ((P ++ " " ++ A ++ " ") ++ String c1 (String c2 (String ":" (String "[" R)))) by (rewrite !app_assoc_s; reflexivity);
    rewrite shown_here; [|rewrite !nc_app, NA, NP; reflexivity|exact Hc1|exact Hc2] end.
  rewrite up_to_some by exact Ne. reflexivity.
Qed.
