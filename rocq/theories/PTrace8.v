(** The operands of the trace line (C84). *)
From Coq Require Import String Ascii.
From Verif Require Import Base Cpu Alu Ops Machine Trace Spec SpecOps SpecRun SpecTop SpecCodes SpecStop SpecEa PBase PMem PRun PFrame PExec PStop PStop2 PCodes Dump SpecDump PDump TraceText SpecTrace SpecNames SpecOpers PTrace PTrace2 PTrace3 PTrace4 PTrace6 PTrace7.
Local Open Scope string_scope.
Local Open Scope Z_scope.

Section Operands.
Context (a : arch) (p : pfx) (x : tctx) (F : fits x p) (Hseg : forall n, p_seg p = Some n -> 0 <= n < 6).
(** The maker prints the operands and leaves [r]. *)
Definition prints (f : maker) (l : list Z) (os : list operand) (r : list Z) : Prop :=
  exists us, f l = Some (operand_text us, r) /\ Forall2 (shows a) os us.
Lemma joined_app u v : joined (u ++ v) = joined u ++ joined v.
Proof. induction u as [|c u IH]; [reflexivity|]. cbn [joined app]. rewrite IH, app_assoc_s. reflexivity. Qed.
Lemma prints_then f g l r q o1 o2 : prints f l o1 r -> prints g r o2 q -> prints (f >> g) l (o1 ++ o2)%list q.
Proof.
  intros (u & E1 & F1) (v & E2 & F2). exists (u ++ v)%list. unfold then_. rewrite E1, E2. split; [unfold operand_text; rewrite map_app, joined_app; reflexivity|apply Forall2_app; assumption].
Qed.
Lemma prints_one f l o r u : f l = Some (" " ++ u, r) -> shows a o u -> prints f l [o] r.
Proof. intros E S. exists [u]. split; [rewrite E; unfold operand_text; cbn [map joined]; rewrite app_empty; reflexivity|constructor; [exact S|constructor]]. Qed.
Lemma prints_none l : prints (say "") l [] l. Proof. exists []. split; [reflexivity|constructor]. Qed.
Lemma name_shows l n : 0 <= n < Z.of_nat (List.length l) -> nth_error l (Z.to_nat n) = Some (name_of l n).
Proof. intros H. unfold name_of. destruct (nth_error l (Z.to_nat n)) as [u|] eqn:E; [|apply nth_error_None in E; lia]. f_equal. symmetry. apply nth_error_nth, E. Qed.
Lemma shows_b n : 0 <= n < 8 -> shows a (XReg 8 n) (name_of names_b n). Proof. intros H. apply shows_reg. apply (name_shows names_b). exact H. Qed.
Lemma shows_w n : 0 <= n < 8 -> shows a (XReg (osz p) n) (name_of (if x_os x then names_d else names_w) n).
Proof. intros H. destruct F as (_ & F2 & _). unfold osz. rewrite F2. apply shows_reg. destruct (p_os p); [apply (name_shows names_d)|apply (name_shows names_w)]; exact H. Qed.
Lemma shows_sg n : 0 <= n < 6 -> shows a (XSeg n) (name_of names_seg n). Proof. intros H. apply shows_seg. apply (name_shows names_seg). exact H. Qed.
Lemma prints_regb n l : 0 <= n < 8 -> prints (say (regb_t n)) l [XReg 8 n] l. Proof. intros H. eapply prints_one; [reflexivity|apply shows_b, H]. Qed.
Lemma prints_regw n l : 0 <= n < 8 -> prints (say (regw_t x n)) l [XReg (osz p) n] l. Proof. intros H. eapply prints_one; [reflexivity|apply shows_w, H]. Qed.
Lemma prints_seg n l : 0 <= n < 6 -> prints (say (seg_t n)) l [XSeg n] l. Proof. intros H. eapply prints_one; [reflexivity|apply shows_sg, H]. Qed.
Lemma prints_al l : prints (say " AL") l [XReg 8 AX] l. Proof. eapply (prints_one _ _ _ _ "AL"); [reflexivity|apply shows_reg; reflexivity]. Qed.
Lemma prints_cl l : prints (say " CL") l [XReg 8 CX] l. Proof. eapply (prints_one _ _ _ _ "CL"); [reflexivity|apply shows_reg; reflexivity]. Qed.
Lemma prints_1 l : prints (say " 1") l [XOne] l. Proof. eapply (prints_one _ _ _ _ "1"); [reflexivity|constructor]. Qed.
Lemma prints_acc l : prints (say (acc_t x)) l [XReg (osz p) AX] l.
Proof.
  destruct F as (_ & F2 & _). unfold acc_t, osz. rewrite F2. destruct (p_os p); [apply (prints_one _ _ _ _ "EAX")|apply (prints_one _ _ _ _ "AX")]; try reflexivity; apply shows_reg; reflexivity.
Qed.
Lemma hexv n v : 0 <= v < 4294967296 -> hex_value v (fmt_x n v).
Proof.
  intros H. split; [|apply fmt_hex, H]. assert (H16 : 0 <= v < 16 ^ (Z.of_nat 15 + 1)) by (split; [lia|eapply Z.lt_trans; [apply H|reflexivity]]).
  destruct (xdigits_spec 15 v "" H16) as (t & Et & _ & L & _). unfold fmt_x. rewrite Et, app_empty. intros E. apply (f_equal String.length) in E. rewrite length_app in E. cbn in E. lia.
Qed.
(** ** Register or memory *)
Lemma byte_tail b (u : list Z) : byte_list (b :: u) -> byte_list u. Proof. intros H c Hc. apply H. right. exact Hc. Qed.
Lemma rm_rest w w' t o r : rm_oper p a w t = Some (o, r) -> exists o', rm_oper p a w' t = Some (o', r).
Proof. unfold rm_oper. destruct t as [|b u]; [discriminate|]. destruct (_ =? 3); [intros [= <- <-]; eexists; reflexivity|]. intros H. exists o. exact H. Qed.
Lemma prints_rm (wide : bool) (b : Z) (u tl : list Z) o r : byte_list (b :: u ++ tl)%list -> rm_oper p a (if wide then osz p else 8) (b :: u)%list = Some (o, r) -> prints (rm_t x wide b) (u ++ tl)%list [o]%list (r ++ tl)%list.
Proof.
  intros Hb. assert (B0 : 0 <= b < 256) by (apply Hb; left; reflexivity). unfold rm_oper, rm_t. destruct (Z.eqb_spec (b / 64) 3) as [|Hm].
  - intros [= <- <-]. destruct wide; [apply prints_regw|apply prints_regb]; lia.
  - unfold real_address. replace (b / 64 =? 3) with false by lia. destruct (real_offset p (b / 64) (b mod 8) a u) as [[o' r']|] eqn:Ho; [|discriminate]. intros [= <- <-].
    destruct F as (F1 & F2 & F3).
    destruct (mem_value x p a (b / 64) (b mod 8) (u ++ tl)%list o' (r' ++ tl)%list F1 F3 (byte_tail _ _ Hb) ltac:(lia) ltac:(lia) (offset_more _ _ _ _ _ _ _ tl Ho)) as (e & Em & Ne & Eo).
    assert (Hsr : 0 <= real_sreg p (b / 64) (b mod 8) < 6).
    { unfold real_sreg. destruct (p_seg p) as [n|] eqn:Es; [apply Hseg; reflexivity|destruct (_ && _); lia]. }
    destruct (seg_name _ Hsr) as (c1 & c2 & En & _ & _ & Hlk).
    eapply (prints_one _ _ _ _ (joined [name_of names_seg (real_sreg p (b / 64) (b mod 8)); ":["; e; "]"])).
    + rewrite Em. unfold open_t, seg_t. rewrite F1. change (match p_seg p with Some n => n | None => if negb (b / 64 =? 0) && ((b mod 8 =? 2) || (b mod 8 =? 3) || (b mod 8 =? 6)) then 2 else 3 end) with (real_sreg p (b / 64) (b mod 8)).
      cbn [joined]. rewrite !app_assoc_s. reflexivity.
    + eapply shows_mem; [rewrite En; apply Hlk|exact Eo|reflexivity].
Qed.
Lemma prints_modrm2 (wr wm : bool) pos (b : Z) (u tl : list Z) o r : byte_list (b :: u ++ tl)%list -> rm_oper p a (if wm then osz p else 8) (b :: u)%list = Some (o, r) ->
  prints (modrm_t2 x wr wm pos) ((b :: u) ++ tl)%list
    (let g := XReg (if wr then osz p else 8) ((b / 8) mod 8) in match pos with NoReg => [o] | Before => [g; o] | After => [o; g] end) (r ++ tl)%list.
Proof.
  intros Hb Hr. pose proof (prints_rm wm b u tl o r Hb Hr) as P. assert (B0 : 0 <= b < 256) by (apply Hb; left; reflexivity).
  assert (G : forall l, prints (say (if wr then regw_t x ((b / 8) mod 8) else regb_t ((b / 8) mod 8))) l [XReg (if wr then osz p else 8) ((b / 8) mod 8)] l) by (intros l; destruct wr; [apply prints_regw|apply prints_regb]; lia).
  unfold prints, modrm_t2. cbn [app]. cbv zeta. destruct pos; [exact P| |].
  - apply (prints_then _ _ _ _ _ _ _ (G _) P).
  - apply (prints_then _ _ _ _ _ _ _ P (G _)).
Qed.
Lemma prints_mov_seg (from : bool) (b : Z) (u tl : list Z) o r : byte_list (b :: u ++ tl)%list -> rm_oper p a (osz p) (b :: u)%list = Some (o, r) -> (b / 8) mod 8 < 6 ->
  prints (mov_seg_t x from) ((b :: u) ++ tl)%list (if from then [o; XSeg ((b / 8) mod 8)] else [XSeg ((b / 8) mod 8); o]) (r ++ tl)%list.
Proof.
  intros Hb Hr Hg. pose proof (prints_rm true b u tl o r Hb Hr) as P. assert (B0 : 0 <= b < 256) by (apply Hb; left; reflexivity).
  unfold prints, mov_seg_t. cbn [app]. cbv zeta. destruct from.
  - apply (prints_then _ _ _ _ _ _ _ P (prints_seg ((b / 8) mod 8) _ ltac:(lia))).
  - apply (prints_then _ _ _ _ _ _ _ (prints_seg ((b / 8) mod 8) _ ltac:(lia)) P).
Qed.
(** ** Immediates *)
Lemma imm8_cons r v : imm 8 r = Some v -> r = [v]. Proof. unfold imm. destruct r as [|b0 [|b1 [|b2 [|b3 [|b4 r]]]]]; try discriminate. intros [= <-]. reflexivity. Qed.
Lemma imm16_cons r v : imm 16 r = Some v -> exists b0 b1, r = [b0; b1] /\ v = b0 + 256 * b1.
Proof. unfold imm. destruct r as [|b0 [|b1 [|b2 [|b3 [|b4 r]]]]]; try discriminate. intros [= <-]. eexists _, _. split; reflexivity. Qed.
Lemma imm32_cons r v : imm 32 r = Some v -> exists b0 b1 b2 b3, r = [b0; b1; b2; b3] /\ v = b0 + 256 * b1 + 65536 * b2 + 16777216 * b3.
Proof. unfold imm. destruct r as [|b0 [|b1 [|b2 [|b3 [|b4 r]]]]]; try discriminate. intros [= <-]. eexists _, _, _, _. split; reflexivity. Qed.
Lemma prints_imm8 (r tl : list Z) v : byte_list (r ++ tl)%list -> imm 8 r = Some v -> prints imm8 (r ++ tl)%list [XImm v] tl.
Proof.
  intros Hb H. apply imm8_cons in H. subst r. assert (B : 0 <= v < 256) by (apply Hb; left; reflexivity).
  apply (prints_one _ _ _ _ ("0x" ++ fmt_x 2 v)); [reflexivity|]. constructor. apply hexv. lia.
Qed.
Lemma prints_r16 n (r tl : list Z) v : byte_list (r ++ tl)%list -> imm 16 r = Some v -> prints (r16 (hex n)) (r ++ tl)%list [XImm v] tl.
Proof.
  intros Hb H. apply imm16_cons in H. destruct H as (b0 & b1 & -> & ->). assert (B : 0 <= b0 < 256 /\ 0 <= b1 < 256) by (split; apply Hb; cbn; auto).
  eapply (prints_one _ _ _ _ ("0x" ++ fmt_x n (b0 + 256 * b1))); [reflexivity|]. constructor. apply hexv. lia.
Qed.
Lemma prints_r32 n (r tl : list Z) v : byte_list (r ++ tl)%list -> imm 32 r = Some v -> prints (r32 (hex n)) (r ++ tl)%list [XImm v] tl.
Proof.
  intros Hb H. apply imm32_cons in H. destruct H as (b0 & b1 & b2 & b3 & -> & ->). assert (B : 0 <= b0 < 256 /\ 0 <= b1 < 256 /\ 0 <= b2 < 256 /\ 0 <= b3 < 256) by (repeat split; apply Hb; cbn; auto).
  eapply (prints_one _ _ _ _ ("0x" ++ fmt_x n (b0 + 256 * b1 + 65536 * b2 + 16777216 * b3))); [reflexivity|]. constructor. apply hexv. lia.
Qed.
Lemma prints_immx (r tl : list Z) v : byte_list (r ++ tl)%list -> imm (osz p) r = Some v -> prints (immx x) (r ++ tl)%list [XImm v] tl.
Proof. destruct F as (_ & F2 & _). unfold immx, osz. rewrite F2. destruct (p_os p); [apply prints_r32|apply prints_r16]. Qed.
Lemma sx_low_w w v : w = 16 \/ w = 32 -> 0 <= v < 256 -> sx w v = low w (signed 8 v).
Proof.
  intros Hw H. unfold sx, low, signed. change (2 ^ (8 - 1)) with 128. change (2 ^ 8) with 256. destruct Hw as [->| ->]; [change (2 ^ 16) with 65536|change (2 ^ 32) with 4294967296]; destruct (v <? 128) eqn:E; lia.
Qed.
Lemma prints_sx w n r tl v : w = 16 \/ w = 32 -> byte_list (r ++ tl)%list -> imm 8 r = Some v -> prints (r8 (fun v => hex n (sx w v))) (r ++ tl)%list [XImm (low w (signed 8 v))] tl.
Proof.
  intros Hw Hb H. apply imm8_cons in H. subst r. assert (B : 0 <= v < 256) by (apply Hb; left; reflexivity).
  eapply (prints_one _ _ _ _ ("0x" ++ fmt_x n (sx w v))); [reflexivity|]. rewrite <- sx_low_w by assumption. constructor. apply hexv. rewrite sx_low_w by assumption. unfold low. destruct Hw as [->| ->]; [change (2 ^ 16) with 65536|change (2 ^ 32) with 4294967296]; lia.
Qed.
Lemma prints_j8 n (r tl : list Z) v : byte_list (r ++ tl)%list -> imm 8 r = Some v -> prints (r8 (fun v => " .+0x" ++ fmt_x n (sx 16 v))) (r ++ tl)%list [XJump (low 16 (signed 8 v))] tl.
Proof.
  intros Hb H. apply imm8_cons in H. subst r. assert (B : 0 <= v < 256) by (apply Hb; left; reflexivity).
  eapply (prints_one _ _ _ _ (".+0x" ++ fmt_x n (sx 16 v))); [reflexivity|]. rewrite <- (sx_low_w 16) by auto. constructor. apply hexv. pose proof (sx_range v B). lia.
Qed.
Lemma prints_j16 (r tl : list Z) v : byte_list (r ++ tl)%list -> imm 16 r = Some v -> prints rel16 (r ++ tl)%list [XJump v] tl.
Proof.
  intros Hb H. apply imm16_cons in H. destruct H as (b0 & b1 & -> & ->). assert (B : 0 <= b0 < 256 /\ 0 <= b1 < 256) by (split; apply Hb; cbn; auto).
  eapply (prints_one _ _ _ _ (".+0x" ++ fmt_x 4 (b0 + 256 * b1))); [reflexivity|]. constructor. apply hexv. lia.
Qed.
Lemma prints_far b0 b1 b2 b3 (tl : list Z) : byte_list ([b0; b1; b2; b3] ++ tl)%list -> prints far_t ([b0; b1; b2; b3] ++ tl)%list [XFar (b2 + 256 * b3) (b0 + 256 * b1)] tl.
Proof.
  intros Hb. assert (B : 0 <= b0 < 256 /\ 0 <= b1 < 256 /\ 0 <= b2 < 256 /\ 0 <= b3 < 256) by (repeat split; apply Hb; cbn; auto).
  eapply (prints_one _ _ _ _ (joined ["0x"; fmt_x 4 (b2 + 256 * b3); ":"; fmt_x 4 (b0 + 256 * b1)])); [cbn [joined]; unfold far_t; cbn [app]; rewrite app_empty; reflexivity|].
  constructor; (apply fmt_x_ok; [lia|change (16 ^ Z.of_nat 4) with 65536; lia]).
Qed.
Lemma prints_moffs (r tl : list Z) v : byte_list (r ++ tl)%list -> imm (if p_as p then 32 else 16) r = Some v -> prints (moffs_t x) (r ++ tl)%list [XOff (match p_seg p with Some n => n | None => 3 end) v] tl.
Proof.
  intros Hb H. destruct F as (F1 & _ & F3). set (sg := match p_seg p with Some n => n | None => 3 end).
  assert (Hsg : 0 <= sg < 6) by (unfold sg; destruct (p_seg p) as [n|] eqn:Es; [apply Hseg; reflexivity|lia]).
  assert (E : 0 <= v < 4294967296 /\ moffs_t x (r ++ tl)%list = Some (" " ++ joined [name_of names_seg sg; ":[0x"; fmt_x 0 v; "]"], tl)).
  { unfold moffs_t, then_, say, dseg_t. rewrite F1, F3. fold sg. unfold seg_t. destruct (p_as p).
    - apply imm32_cons in H. destruct H as (b0 & b1 & b2 & b3 & -> & ->). assert (B : 0 <= b0 < 256 /\ 0 <= b1 < 256 /\ 0 <= b2 < 256 /\ 0 <= b3 < 256) by (repeat split; apply Hb; cbn; auto).
      split; [lia|]. cbn [r32 app joined]. rewrite !app_assoc_s. reflexivity.
    - apply imm16_cons in H. destruct H as (b0 & b1 & -> & ->). assert (B : 0 <= b0 < 256 /\ 0 <= b1 < 256) by (split; apply Hb; cbn; auto).
      split; [lia|]. cbn [r16 app joined]. rewrite !app_assoc_s. reflexivity. }
  destruct E as [B E]. eapply prints_one; [exact E|]. apply shows_off; [apply (name_shows names_seg); exact Hsg|apply hexv, B].
Qed.
End Operands.
