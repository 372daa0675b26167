(** The operands of the trace line (C84): dispatch over both opcode maps, and the whole line. *)
From Coq Require Import String Ascii.
From Verif Require Import Base Cpu Alu Ops Machine Trace Spec SpecOps SpecRun SpecTop SpecCodes SpecStop SpecEa PBase PMem PRun PFrame PExec PStop PStop2 PCodes Dump SpecDump PDump TraceText SpecTrace SpecNames SpecOpers PTrace PTrace2 PTrace3 PTrace4 PTrace6 PTrace7 PTrace8 PTrace9.
Local Open Scope string_scope.
Local Open Scope Z_scope.

Section Dispatch.
Context (a : arch) (p : pfx) (x : tctx) (F : fits x p) (Hseg : forall n, p_seg p = Some n -> 0 <= n < 6).
Ltac gen := intros; first [eapply prints_regw|eapply prints_seg|eapply prints_al|eapply prints_cl|eapply prints_1|eapply prints_acc]; eauto; lia.
Ltac im := intros; lazymatch goal with
  | |- prints _ imm8 _ _ _ => eapply i_b; eauto
  | |- prints _ (immx _) _ _ _ => eapply i_v; eauto
  | |- prints _ (moffs_t _) _ _ _ => eapply i_ov; eauto
  | |- prints _ far_t _ _ _ => eapply i_ap; eauto
  | |- prints _ rel16 _ _ _ => eapply j_v; eauto
  | |- prints _ (r16 (hex 4)) _ _ _ => eapply i_v16; eauto
  | |- prints _ (r8 (fun v => if _ then _ else _)) _ _ _ => eapply i_sv; eauto
  | |- prints _ (r8 (fun v => hex 4 _)) _ _ _ => eapply i_sv16; eauto
  | H : SpecOpers.oper _ _ _ _ _ Jb = _ |- prints _ (r8 _) _ _ _ => eapply j_b; eauto
  | |- prints _ (r8 _) _ _ _ => eapply i_int; eauto
  end.
Ltac pick := lazymatch goal with
  | |- shown_by _ _ (modrm_t _ false After) _ _ => eapply s_EbGb; eauto
  | |- shown_by _ _ (modrm_t _ true After) _ _ => eapply s_EvGv; eauto
  | |- shown_by _ _ (modrm_t _ false Before) _ _ => eapply s_GbEb; eauto
  | |- shown_by _ _ (modrm_t _ true Before) _ [Gv; Ew] => eapply s_GvEw; eauto
  | |- shown_by _ _ (modrm_t _ true Before) _ _ => eapply s_GvEv; eauto
  | |- shown_by _ _ (modrm_t2 _ true false Before) _ _ => eapply s_GvEb; eauto
  | |- shown_by _ _ (modrm_t _ false NoReg) _ _ => eapply s_Eb; eauto
  | |- shown_by _ _ (modrm_t _ true NoReg) _ _ => eapply s_Ev; eauto
  | |- shown_by _ _ (mov_seg_t _ true) _ _ => eapply s_EvSw; eauto
  | |- shown_by _ _ (mov_seg_t _ false) _ _ => eapply s_SwEv; eauto
  | |- shown_by _ _ (modrm_t _ false NoReg >> say _) _ _ => eapply s_EbThen; [eauto..| |reflexivity|reflexivity|reflexivity]; gen
  | |- shown_by _ _ (modrm_t _ true NoReg >> say _) _ _ => eapply s_EvThen; [eauto..| |reflexivity|reflexivity]; gen
  | |- shown_by _ _ (modrm_t _ false NoReg >> _) _ _ => eapply s_EbImm; [eauto..|reflexivity|]; im
  | |- shown_by _ _ (modrm_t _ true NoReg >> _) _ _ => eapply s_EvImm; [eauto..|reflexivity|]; im
  | |- shown_by _ _ (modrm_t _ true Before >> _) _ _ => eapply s_GvEvImm; [eauto..|reflexivity|]; im
  | |- shown_by _ _ (moffs_t _ >> say _) _ _ => eapply s_ov2; [eauto..|reflexivity| |reflexivity]; gen
  | |- shown_by _ _ (say _ >> _) _ _ => eapply s_const2; [reflexivity|reflexivity| |reflexivity|]; [gen|im]
  | |- shown_by _ _ (say "") _ _ => apply s_none
  | |- shown_by _ _ (say (_ ++ _)) ?n _ => eapply s_accreg with (op := n); eauto
  | |- shown_by _ _ (say _) _ _ => eapply s_const; [reflexivity| |reflexivity]; gen
  | |- shown_by _ _ (r8 (fun v => regb_t _ ++ _)) ?n _ => eapply s_RbIb with (op := n); eauto
  | |- shown_by _ _ (if _ then _ else _) ?n _ => eapply s_RvIv with (op := n); eauto
  | |- shown_by _ _ _ _ [_] => eapply s_one; [reflexivity|]; im
  end.
Ltac hlz := lazy [handler Z.eqb Z.ltb Z.leb Z.compare Pos.compare Pos.compare_cont Pos.eqb Z.modulo Z.div Z.div_eucl Z.pos_div_eucl Z.opp Z.add Z.sub Z.mul Pos.mul Pos.add Pos.succ Z.pos_sub Z.double Z.succ_double Z.pred_double Pos.pred_double orb andb fst snd].
Ltac go := lazymatch goal with
  | |- (if p_os p then None else _) = _ -> _ => destruct (p_os p) eqn:Eos; [discriminate|]; intros [= <-]; hlz; first [pick|match goal with |- ?G => idtac "FAIL" G end]
  | |- _ => intros [= <-]; hlz; first [pick|match goal with |- ?G => idtac "FAIL" G end]
  end.
Ltac hlz0 := lazy [handler0F Z.eqb Z.ltb Z.leb Z.compare Pos.compare Pos.compare_cont Pos.eqb orb andb].
Lemma pick_shown f op ks (t tl : list Z) os : shown_by a p f op ks -> byte_list (t ++ tl)%list -> opers_of p a op t ks = Some os -> exists r, prints a f (t ++ tl)%list os r.
Proof. intros S Hb Ho. exact (S _ _ _ Hb Ho). Qed.
Lemma handler_prints op (t tl : list Z) ks os : 0 <= op < 256 -> op <> 15 -> byte_list (t ++ tl)%list -> op_map (p_os p) op (reg_field t) = Some ks -> opers_of p a op t ks = Some os -> exists r, prints a (handler x op) (t ++ tl)%list os r.
Proof.
  intros H H15 Hb Hk Ho. destruct (Z.eq_dec op 246) as [->|N6]; [eapply (s_misc a p x F Hseg false 246); eauto|]. destruct (Z.eq_dec op 247) as [->|N7]; [eapply (s_misc a p x F Hseg true 247); eauto|].
  assert (I : In op (map Z.of_nat (seq 0 256))) by (replace op with (Z.of_nat (Z.to_nat op)) by lia; apply in_map, in_seq; lia).
  eapply pick_shown; [|exact Hb|exact Ho]. clear Hb Ho tl os. revert Hk. generalize (reg_field t). intros g Hk. clear t.
  cbv [map seq In Z.of_nat Pos.of_succ_nat Pos.succ] in I.
  repeat (destruct I as [E|I]; [subst op; try (exfalso; first [apply N6; reflexivity|apply N7; reflexivity|apply H15; reflexivity]); lazy [op_map isin existsb from_to map seq app Z.of_nat Z.to_nat Z.add Z.sub Z.opp Pos.to_nat Pos.iter_op Pos.add Pos.succ Z.pos_sub Pos.sub Pos.of_succ_nat Z.eqb Pos.eqb orb Nat.add Init.Nat.add Pos.pred_double Z.double Z.pred_double Z.succ_double] in Hk; clear N6 N7 H15 H; revert Hk; first [discriminate|go]|]).
  contradiction.
Qed.
Ltac go0 := lazymatch goal with
  | |- (if p_os p then None else _) = _ -> _ => destruct (p_os p) eqn:Eos; [discriminate|]; intros [= <-]; hlz0; pick
  | |- _ => intros [= <-]; hlz0; pick
  end.
Lemma handler0F_prints op (t tl : list Z) ks os : 0 <= op < 256 -> byte_list (t ++ tl)%list -> op_map0F (p_os p) op = Some ks -> opers_of p a op t ks = Some os -> exists r, prints a (handler0F x op) (t ++ tl)%list os r.
Proof.
  intros H Hb Hk Ho.
  assert (I : In op (map Z.of_nat (seq 0 256))) by (replace op with (Z.of_nat (Z.to_nat op)) by lia; apply in_map, in_seq; lia).
  eapply pick_shown; [|exact Hb|exact Ho]. clear Hb Ho tl os t H.
  cbv [map seq In Z.of_nat Pos.of_succ_nat Pos.succ] in I.
  repeat (destruct I as [E|I]; [subst op; lazy [op_map0F isin existsb from_to map seq app Z.of_nat Z.to_nat Z.add Z.sub Z.opp Pos.to_nat Pos.iter_op Pos.add Pos.succ Z.pos_sub Pos.sub Pos.of_succ_nat Z.eqb Pos.eqb orb Nat.add Init.Nat.add Pos.pred_double Z.double Z.pred_double Z.succ_double] in Hk; revert Hk; first [discriminate|go0]|]).
  contradiction.
Qed.
End Dispatch.

Lemma text_both pre : forall p p' x acc l fuel, prefixes_from p pre = Some p' -> fits x p -> nc acc = true -> (List.length pre <= fuel)%nat ->
  exists x' acc', text fuel x acc (pre ++ l) = text (fuel - List.length pre) x' acc' l /\ fits x' p' /\ lead acc' = lead acc ++ announced pre.
Proof.
  induction pre as [|b pre IH]; intros p p' x acc l fuel H F Ha Hl; cbn [prefixes_from List.length app] in *.
  - injection H as <-. exists x, acc. rewrite Nat.sub_0_r. split; [reflexivity|]. split; [exact F|]. unfold announced. cbn. symmetry. apply app_empty.
  - destruct (add_prefix p b) as [p1|] eqn:E1; [|discriminate]. destruct fuel as [|fuel]; [lia|].
    destruct (prefix_exact p b p1 x (pre ++ l)%list E1) as (n & t & x1 & En & Et & Ea & Nn).
    destruct (prefix_text p b p1 x (pre ++ l) acc E1 F Ha) as (n' & t' & x1' & E2 & E3 & F1 & N1 & N2).
    rewrite En in E2. injection E2 as <-. rewrite Et in E3. injection E3 as <- <-. cbn [text]. rewrite En, Et.
    destruct (IH p1 p' x1 ((acc ++ (if (String.length acc =? 0)%nat then "" else " ") ++ n) ++ t) l fuel H F1 ltac:(rewrite !nc_app, N1, N2, Ha; destruct (_ =? _)%nat; reflexivity) ltac:(lia)) as (x' & acc' & E4 & F4 & L2).
    exists x', acc'. split; [exact E4|]. split; [exact F4|]. rewrite L2. unfold announced. cbn [map joined]. rewrite Ea, <- lead_app.
    rewrite lead_some; [rewrite !app_assoc_s; reflexivity|]. destruct (lead acc); [destruct n; [congruence|discriminate]|discriminate].
Qed.
Lemma byte_app (u v : list Z) : byte_list (u ++ v)%list -> byte_list v. Proof. intros H c Hc. apply H, in_app_iff. right. exact Hc. Qed.
Lemma between_one os op t more : op <> 15 -> (more = "" \/ more = " (MX)") -> between os (op :: t) more.
Proof. intros H15 H. unfold between. destruct op as [|q|q]; try exact H. do 4 (destruct q as [q|q|]; try exact H). contradiction H15. reflexivity. Qed.
(** The whole text in the middle of a line. *)
Lemma middle_operands E base s pre p bs s1 l : warning p bs (warning_t E s s1) -> fetched E base s pre p bs -> wf_state s -> opcode_read bs -> blen bs <= 15 -> ~ undefined_opcode bs -> refused_form bs = false -> operands p (ar s) bs = Some l ->
  exists w name form more us, middle E s s1 = w ++ " " ++ limited (announced pre ++ name ++ " (" ++ form ++ ")" ++ more ++ operand_text us) /\ warning p bs w /\ named_as (p_os p) bs name form (more ++ operand_text us) /\
    between (p_os p) bs more /\ Forall2 (shows (ar s)) l us.
Proof.
  intros Wn Hf W Hr Hl Hu Hn Hop. pose proof Hf as ([F Wr PC _] & Hp & C). pose proof (prefixes_length _ _ Hp) as Hpl. unfold blen in Hl.
  destruct (window_code E base s (pre ++ bs) F W C ltac:(rewrite app_length; lia)) as (tl & Ew & Lt). rewrite app_length in Lt.
  pose proof (window_range E base s F W) as Hb. rewrite Ew, <- app_assoc in Hb. apply byte_app in Hb. destruct bs as [|op t]; [destruct Hr|].
  assert (Hs : forall n, p_seg p = Some n -> 0 <= n < 6) by (apply (prefix_seg pre _ _ Hp); discriminate).
  change (middle E s s1) with (warning_t E s s1 ++ " " ++ debug_string E s s1). revert Wn. generalize (warning_t E s s1). intros w Wn. unfold debug_string. rewrite Ew, <- app_assoc.
  destruct (text_both pre (mkPfx None false false 0) p (ctx0 s s1) "" ((op :: t) ++ tl)%list 6 Hp ltac:(split; [|split]; reflexivity) eq_refl ltac:(lia)) as (x & acc & Et & Fx & La). rewrite Et.
  assert (Ef : exists f, (6 - List.length pre)%nat = S f) by (exists (5 - List.length pre)%nat; lia). destruct Ef as [f ->].
  assert (P0 : prefix_t x op = None).
  { destruct Hr as (Np & _). unfold prefix_byte in Np. cbn [In] in Np. unfold prefix_t. repeat match goal with |- context [?a =? ?b] => replace (a =? b) with false by lia end. reflexivity. }
  assert (B0 : 0 <= op < 256) by (apply Hb; left; reflexivity). cbn [operands] in Hop.
  destruct (Z.eq_dec op 15) as [->|H15].
  - destruct t as [|b t]; [destruct Hr as (_ & _ & X); destruct (X eq_refl) as [X1 _]; congruence|].
    assert (Hd : In b defined0F). { destruct (in_dec Z.eq_dec b defined0F) as [I|N]; [exact I|]. exfalso. apply Hu. right. split; [reflexivity|exact N]. }
    assert (N186 : b <> 186) by (intros ->; discriminate Hn).
    destruct (name_0F (p_os p) b t Hd N186) as (n & En & Hm).
    change (15 =? 15) with true in Hop. cbv iota in Hop. destruct (op_map0F (p_os p) b) as [ks|] eqn:Ek; [|discriminate].
    assert (B1 : 0 <= b < 256) by (apply Hb; right; left; reflexivity).
    destruct (handler0F_prints (ar s) p x Fx Hs b t tl ks l B1 ltac:(intros c Hc; apply Hb; right; right; exact Hc) Ek Hop) as (q & us & Eh & Hus).
    cbn [text app]. rewrite P0. change (op_text 15 (b :: t ++ tl)) with (Some "Ext (0F)"). cbv iota.
    assert (E15 : handler x 15 (b :: (t ++ tl)%list) = Some ((" " ++ n) ++ operand_text us, q)) by (unfold handler; change (15 =? 15) with true; cbv beta iota; rewrite En; unfold then_, say; rewrite Eh; reflexivity). rewrite E15.
    match goal with |- context [cut ?z] => replace (cut z) with (limited (announced pre ++ "Ext" ++ " (" ++ "0F" ++ ")" ++ (" " ++ n) ++ operand_text us)) end.
    2:{ match goal with |- limited ?a = cut ?b => change (limited a = limited b) end. f_equal. rewrite <- (lead_app acc), La. cbn [lead String.length Nat.eqb append]. rewrite !app_assoc_s. reflexivity. }
    exists w, "Ext", "0F", (" " ++ n), us. split; [reflexivity|]. split; [exact Wn|]. split; [|split; [|exact Hus]].
    + unfold named_as. destruct Hm as [Hm|Hm]; [left; exact Hm|]. right. exists n. split; [exact Hm|]. right. split; [reflexivity|]. split; [reflexivity|]. exists (operand_text us). split; [reflexivity|]. eapply blank_handler0F; eauto.
    + exists n. split; [reflexivity|]. destruct Hm as [Hm|Hm]; [|left; exact Hm]. right. cbn [misnamed] in Hm. destruct Hm as [->| ->]; vm_compute in En; injection En as <-; reflexivity.
  - replace (op =? 15) with false in Hop by lia. destruct (op_map (p_os p) op (reg_field t)) as [ks|] eqn:Ek; [|discriminate].
    destruct (name_one (p_os p) op t tl B0 H15 Hr ltac:(intros I; apply Hu; left; exact I) Hn ltac:(intros -> ->; cbn [List.length] in *; lia)) as (name & form & more & En & Hmore & Hnm).
    destruct (handler_prints (ar s) p x Fx Hs op t tl ks l B0 H15 ltac:(intros c Hc; apply Hb; right; exact Hc) Ek Hop) as (q & us & Eh & Hus).
    cbn [text app]. rewrite En, P0, Eh.
    match goal with |- context [cut ?z] => replace (cut z) with (limited (announced pre ++ name ++ " (" ++ form ++ ")" ++ more ++ operand_text us)) end.
    2:{ match goal with |- limited ?a = cut ?b => change (limited a = limited b) end. f_equal. rewrite <- (lead_app acc), La. change (lead "") with "". rewrite !app_assoc_s. reflexivity. }
    exists w, name, form, more, us. split; [reflexivity|]. split; [exact Wn|]. split; [apply Hnm|]. split; [apply between_one; assumption|exact Hus].
Qed.
