(** Proofs about the trace: the text of an instruction without prefixes is never cut. *)
From Coq Require Import String Ascii.
From Verif Require Import Base Cpu Ops Machine Spec SpecRun SpecCodes PBase PMem PExec Dump SpecDump PDump TraceText SpecTrace PTrace PTrace2 PTrace3 PTrace4.
Local Open Scope string_scope.
Local Open Scope Z_scope.

Definition short (n : nat) (t : string) : Prop := (String.length t <= n)%nat.
Lemma short_app n m a b : short n a -> short m b -> short (n + m) (a ++ b). Proof. unfold short. rewrite length_app. lia. Qed.
Lemma short_le n m t : short n t -> (n <= m)%nat -> short m t. Proof. unfold short. lia. Qed.
Lemma short_x k v : (k <= 8)%nat -> 0 <= v < 4294967296 -> short 8 (fmt_x k v).
Proof.
  intros Hk Hv. assert (H16 : 0 <= v < 16 ^ (Z.of_nat 15 + 1)) by (change (16 ^ (Z.of_nat 15 + 1)) with 18446744073709551616; lia).
  destruct (xdigits_spec 15 v "" H16) as (t & Et & _ & _ & L). specialize (L 8 ltac:(lia) ltac:(change (16 ^ 8) with 4294967296; lia)).
  unfold short, fmt_x. cbv zeta. rewrite Et, app_empty, length_app, zeros_length. lia.
Qed.
Lemma short_i v : 0 <= v < 256 -> short 3 (fmt_i v).
Proof.
  intros H. assert (A : forallb (fun i => (String.length (fmt_i (Z.of_nat i)) <=? 3)%nat) (seq 0 256) = true) by (vm_compute; reflexivity).
  rewrite forallb_forall in A. specialize (A (Z.to_nat v) ltac:(apply in_seq; lia)). rewrite Z2Nat.id in A by lia. apply Nat.leb_le, A.
Qed.
Lemma short_name k l n : forallb (fun t => (String.length t <=? k)%nat) l = true -> short k (name_of l n).
Proof. intros H. unfold name_of, short. destruct (nth_in_or_default (Z.to_nat n) l "") as [I| ->]; [|cbn; lia]. rewrite forallb_forall in H. apply Nat.leb_le, H, I. Qed.
(** Bound on what a maker prints, given bytes. *)
Definition lim (n : nat) (f : maker) : Prop := forall l t r, byte_list l -> f l = Some (t, r) -> short n t /\ byte_list r.
Lemma lim_le n m f : lim n f -> (n <= m)%nat -> lim m f. Proof. intros H L l t r Hb E. destruct (H l t r Hb E). split; [eapply short_le; eauto|auto]. Qed.
Lemma lim_say n t : short n t -> lim n (say t). Proof. intros H l u r Hb [= <- <-]. auto. Qed.
Lemma lim_then n m f g : lim n f -> lim m g -> lim (n + m) (f >> g).
Proof.
  intros F G l t r Hb. unfold then_. destruct (f l) as [[a l1]|] eqn:E1; [|discriminate]. destruct (F _ _ _ Hb E1) as [S1 B1]. destruct (g l1) as [[b l2]|] eqn:E2; [|discriminate]. destruct (G _ _ _ B1 E2) as [S2 B2].
  intros [= <- <-]. split; [apply short_app; auto|auto].
Qed.
Lemma bl_tail b l : byte_list (b :: l) -> 0 <= b < 256 /\ byte_list l. Proof. intros H. split; [apply H; left; reflexivity|intros c Hc; apply H; right; exact Hc]. Qed.
Lemma lim_r8 n f : (forall v, 0 <= v < 256 -> short n (f v)) -> lim n (r8 f).
Proof. intros H [|b l] t r Hb; [discriminate|]. apply bl_tail in Hb. destruct Hb. intros [= <- <-]. auto. Qed.
Lemma lim_r16 n f : (forall v, 0 <= v < 65536 -> short n (f v)) -> lim n (r16 f).
Proof. intros H [|a [|b l]] t r Hb; try discriminate. apply bl_tail in Hb. destruct Hb as [Ha Hb]. apply bl_tail in Hb. destruct Hb. intros [= <- <-]. split; [apply H; lia|auto]. Qed.
Section NoPrefix.
Context (x : tctx) (Hos : x_os x = false) (Has : x_as x = false) (Hseg : x_seg x = None) (Hrep : x_rep x = 0).
Lemma short_seg n : short 3 (seg_t n). Proof. apply (short_app 1 2 " "); [unfold short; cbn; lia|apply short_name; reflexivity]. Qed.
Lemma short_regb n : short 3 (regb_t n). Proof. apply (short_app 1 2 " "); [unfold short; cbn; lia|apply short_name; reflexivity]. Qed.
Lemma short_regw n : short 3 (regw_t x n). Proof. unfold regw_t. rewrite Hos. apply (short_app 1 2 " "); [unfold short; cbn; lia|apply short_name; reflexivity]. Qed.
Lemma short_acc : short 3 (acc_t x). Proof. unfold acc_t. rewrite Hos. unfold short. cbn. lia. Qed.
Lemma short_hex k v : (k <= 8)%nat -> 0 <= v < 4294967296 -> short 11 (hex k v). Proof. intros H1 H2. apply (short_app 3 8 " 0x"); [unfold short; cbn; lia|apply short_x; auto]. Qed.
Lemma short_d16 v : 0 <= v < 65536 -> short 8 (disp16_t v). Proof. intros H. apply short_x; [lia|]. destruct (v <? 32768) eqn:E; lia. Qed.
Lemma short_open md m : short 5 (open_t x md m). Proof. unfold open_t. apply (short_app 3 2); [apply short_seg|unfold short; cbn; lia]. Qed.
Lemma short_base m : short 5 (base16 m). Proof. apply short_name. reflexivity. Qed.
Ltac lit := unfold short; cbn; lia.
Lemma lim_imm8 : lim 11 imm8. Proof. apply lim_r8. intros v Hv. apply short_hex; lia. Qed.
Lemma lim_immx : lim 11 (immx x). Proof. unfold immx. rewrite Hos. apply lim_r16. intros v Hv. apply short_hex; lia. Qed.
Lemma lim_mem md m : lim 22 (mem_t x md m).
Proof.
  unfold mem_t. rewrite Has. destruct (md =? 0).
  - destruct (m =? 6).
    + apply lim_r16. intros v Hv. eapply short_le; [apply (short_app 5 11); [apply short_open|apply (short_app 2 9); [lit|apply (short_app 8 1); [destruct (v <? 32768); [apply short_x; lia|apply short_d16, Hv]|lit]]]|lia].
    + eapply lim_le; [apply lim_say, (short_app 5 6); [apply short_open|apply (short_app 5 1); [apply short_base|lit]]|lia].
  - destruct (md =? 1).
    + apply lim_r8. intros v Hv. apply (short_app 5 17); [apply short_open|apply (short_app 5 12); [apply short_base|apply (short_app 3 9); [lit|apply (short_app 8 1); [apply short_d16, sx_range, Hv|lit]]]].
    + apply lim_r16. intros v Hv. apply (short_app 5 17); [apply short_open|apply (short_app 5 12); [apply short_base|apply (short_app 3 9); [lit|apply (short_app 8 1); [apply short_d16, Hv|lit]]]].
Qed.
Lemma lim_rm w b : lim 22 (rm_t x w b).
Proof. unfold rm_t. destruct (_ =? 3); [|apply lim_mem]. eapply lim_le; [apply (lim_say 3); destruct w; [apply short_regw|apply short_regb]|lia]. Qed.
Lemma lim_modrm2 wr wm pos : lim 25 (modrm_t2 x wr wm pos).
Proof.
  intros [|b l] t r Hb; [discriminate|]. apply bl_tail in Hb. destruct Hb as [_ Hb]. unfold modrm_t2. cbv zeta.
  assert (R : lim 3 (say (if wr then regw_t x ((b / 8) mod 8) else regb_t ((b / 8) mod 8)))) by (apply lim_say; destruct wr; [apply short_regw|apply short_regb]).
  destruct pos; revert Hb; [apply (lim_le 22 25 _ (lim_rm wm b)); lia|apply (lim_then 3 22); [exact R|apply lim_rm]|apply (lim_then 22 3); [apply lim_rm|exact R]].
Qed.
Lemma lim_modrm w pos : lim 25 (modrm_t x w pos). Proof. apply lim_modrm2. Qed.
Lemma lim_mov_seg f : lim 25 (mov_seg_t x f).
Proof.
  intros [|b l] t r Hb; [discriminate|]. apply bl_tail in Hb. destruct Hb as [_ Hb]. unfold mov_seg_t. cbv zeta. assert (R : lim 3 (say (seg_t ((b / 8) mod 8)))) by (apply lim_say, short_seg).
  destruct f; revert Hb; [apply (lim_then 22 3); [apply lim_rm|exact R]|apply (lim_then 3 22); [exact R|apply lim_rm]].
Qed.
Lemma lim_misc w : lim 36 (misc_t x w).
Proof.
  intros [|b l] t r Hb; [discriminate|]. unfold misc_t. revert Hb. apply (lim_then 25 11); [apply lim_modrm|]. destruct (_ =? 0); [destruct w; [apply lim_immx|apply lim_imm8]|apply lim_say; lit].
Qed.
Lemma lim_str di si b a : short 3 b -> short 3 a -> lim 36 (str_t x di si b a).
Proof.
  intros Hb Ha. apply lim_say. unfold str_t, dseg_t. rewrite Has, Hrep. change (0 =? 0) with true. cbv iota.
  eapply short_le; [apply (short_app 3 25); [exact Hb|apply (short_app 9 16); [destruct di; [apply (short_app 3 6); [apply short_seg|lit]|lit]|apply (short_app 9 7); [destruct si; [apply (short_app 3 6); [apply short_seg|lit]|lit]|apply (short_app 3 4); [exact Ha|lit]]]]|lia].
Qed.
Lemma lim_moffs : lim 25 (moffs_t x).
Proof. unfold moffs_t. rewrite Has. eapply lim_le; [apply (lim_then 3 13); [apply lim_say, short_seg|apply lim_r16; intros v Hv; apply (short_app 4 9); [lit|apply (short_app 8 1); [apply short_x; lia|lit]]]|lia]. Qed.
Lemma lim_rel16 : lim 36 rel16. Proof. eapply lim_le; [apply lim_r16; intros v Hv; apply (short_app 5 8); [lit|apply short_x; lia]|lia]. Qed.
Lemma lim_far : lim 36 far_t.
Proof.
  intros [|a [|b [|c [|d l]]]] t r Hb; try discriminate. apply bl_tail in Hb. destruct Hb as [Ha Hb]. apply bl_tail in Hb. destruct Hb as [Hb' Hb]. apply bl_tail in Hb. destruct Hb as [Hc Hb]. apply bl_tail in Hb. destruct Hb as [Hd Hb].
  intros [= <- <-]. split; [|exact Hb]. eapply short_le; [apply (short_app 3 17 " 0x"); [lit|apply (short_app 8 9); [apply short_x; lia|apply (short_app 1 8 ":"); [lit|apply short_x; lia]]]|lia].
Qed.
Lemma lim_if (b : bool) n f g : lim n f -> lim n g -> lim n (if b then f else g). Proof. destruct b; auto. Qed.
Ltac sh := lazymatch goal with
  | |- short _ (seg_t _) => eapply short_le; [apply short_seg|lia] | |- short _ (regw_t _ _) => eapply short_le; [apply short_regw|lia] | |- short _ (acc_t _) => eapply short_le; [apply short_acc|lia]
  | |- short _ (acc_t _ ++ regw_t _ _) => eapply short_le; [apply (short_app 3 3); [apply short_acc|apply short_regw]|lia]
  | |- short _ (hex _ (sx 32 _)) => eapply short_le; [apply short_hex; [lia|unfold sx; change (2 ^ 32) with 4294967296; match goal with |- context [if ?b then _ else _] => destruct b eqn:?; lia end]|lia]
  | |- short _ (hex _ (sx 16 _)) => eapply short_le; [apply short_hex; [lia|match goal with |- context [sx 16 ?v] => pose proof (sx_range v) end; lia]|lia]
  | |- short _ (hex _ _) => eapply short_le; [apply short_hex; lia|lia]
  | |- short _ _ => unfold short; cbn; lia
  end.
Ltac lm := repeat lazymatch goal with
  | |- lim _ (if x_os x then _ else _) => rewrite Hos | |- lim _ (if _ then _ else _) => apply lim_if
  | |- lim _ rel16 => apply lim_rel16 | |- lim _ far_t => apply lim_far | |- lim _ (modrm_t _ _ _) => eapply lim_le; [apply lim_modrm|lia] | |- lim _ (modrm_t2 _ _ _ _) => eapply lim_le; [apply lim_modrm2|lia]
  | |- lim _ (moffs_t _) => eapply lim_le; [apply lim_moffs|lia] | |- lim _ (mov_seg_t _ _) => eapply lim_le; [apply lim_mov_seg|lia] | |- lim _ (misc_t _ _) => apply lim_misc | |- lim _ imm8 => eapply lim_le; [apply lim_imm8|lia]
  | |- lim _ (immx _) => eapply lim_le; [apply lim_immx|lia] | |- lim _ (str_t _ _ _ _ _) => apply lim_str; sh
  | |- lim _ (say _) => apply lim_say; sh
  | |- lim 36 (modrm_t _ _ _ >> _) => apply (lim_then 25 11) | |- lim 36 (say _ >> moffs_t _) => apply (lim_then 11 25) | |- lim 36 (moffs_t _ >> _) => apply (lim_then 25 11) | |- lim 36 (say _ >> imm8) => apply (lim_then 25 11) | |- lim 36 (say _ >> immx _) => apply (lim_then 25 11)
  | |- lim 36 (r16 _ >> r8 _) => apply (lim_then 25 11)
  end.
Lemma short_rel k v : (k <= 8)%nat -> 0 <= v < 4294967296 -> short 13 (" .+0x" ++ fmt_x k v). Proof. intros. apply (short_app 5 8); [lit|apply short_x; auto]. Qed.
Lemma lim_handler0F op : lim 36 (handler0F x op).
Proof. unfold handler0F. lm. apply lim_r8. intros v Hv. eapply short_le; [apply (short_app 1 3 " "); [lit|apply short_i, Hv]|lia]. Qed.
Lemma short_lit t : short (String.length t) t. Proof. unfold short. lia. Qed.
Lemma sx32_range v : 0 <= v < 256 -> 0 <= sx 32 v < 4294967296. Proof. intros H. unfold sx. change (2 ^ 32) with 4294967296. destruct (v <? 128) eqn:E; lia. Qed.
Ltac rng := lazymatch goal with |- 0 <= sx 16 ?v < _ => pose proof (sx_range v); lia | |- 0 <= sx 32 ?v < _ => apply sx32_range; lia | |- _ => lia end.
Ltac sht := lazymatch goal with
  | |- short _ (hex _ _) => apply short_hex; [lia|rng] | |- short _ (fmt_x _ _) => apply short_x; [lia|rng] | |- short _ (fmt_i _) => apply short_i; lia
  | |- short _ (seg_t _) => apply short_seg | |- short _ (dseg_t _) => apply short_seg | |- short _ (regb_t _) => apply short_regb | |- short _ (regw_t _ _) => apply short_regw | |- short _ (acc_t _) => apply short_acc
  | |- short _ (_ ++ _) => eapply short_app; [sht|sht]
  | |- short _ _ => apply short_lit
  end.
Ltac sha := rewrite ?Hos, ?Has; eapply short_le; [sht|cbn [String.length Nat.add]; lia].
Lemma lim_handler op : op <> 15 -> lim 36 (handler x op).
Proof.
  intros H15. unfold handler. cbv zeta. replace (op =? 15) with false by lia.
  lm; lazymatch goal with |- lim _ (r8 _) => apply lim_r8; intros v Hv; sha | |- lim _ (r16 _) => apply lim_r16; intros v Hv; sha | |- lim _ (say _) => apply lim_say; sha end.
Qed.
Lemma short_name0F b n : op_names0F b = Some n -> short 5 n.
Proof. unfold op_names0F. repeat match goal with |- (if ?b then _ else _) = _ -> _ => destruct b; [intros [= <-]; unfold short; cbn; lia|] end. discriminate. Qed.
Lemma lim_handler15 : lim 42 (handler x 15).
Proof.
  intros [|b l] t r Hb; [discriminate|]. apply bl_tail in Hb. destruct Hb as [_ Hb]. unfold handler. change (15 =? 15) with true. cbv beta iota. destruct (op_names0F b) as [n|] eqn:En; [|discriminate].
  revert Hb. apply (lim_then 6 36); [apply lim_say, (short_app 1 5 " "); [lit|eapply short_name0F; eauto]|apply lim_handler0F].
Qed.
Lemma short_op_text op l n : op_text op l = Some n -> short 21 n.
Proof.
  unfold op_text. assert (T : forallb (fun e => match e with Some (a, b) => (String.length a <=? 9)%nat && (String.length b <=? 9)%nat | None => true end) op_names = true) by (vm_compute; reflexivity).
  destruct (nth_in_or_default (Z.to_nat op) op_names None) as [I| ->]; [|discriminate]. rewrite forallb_forall in T. apply T in I. destruct (nth _ _ _) as [[a b]|]; [|discriminate].
  apply andb_true_iff in I. rewrite !Nat.leb_le in I. destruct I as [Ia Ib]. change (short 9 a) in Ia. change (short 9 b) in Ib.
  destruct (sub_names op) as [ns|] eqn:Es; [|intros Hx; replace n with (a ++ " (" ++ b ++ ")") by congruence; apply (short_app 9 12); [exact Ia|apply (short_app 2 10 " ("); [lit|apply (short_app 9 1); [exact Ib|lit]]]].
  destruct l as [|c l]; [discriminate|]. intros Hx. replace n with (name_of ns ((c / 8) mod 8) ++ " (" ++ b ++ ")") by congruence.
  apply (short_app 9 12); [apply short_name; revert Es; unfold sub_names; repeat match goal with |- (if ?b then _ else _) = _ -> _ => destruct b; [intros [= <-]; reflexivity|] end; discriminate|apply (short_app 2 10 " ("); [lit|apply (short_app 9 1); [exact Ib|lit]]].
Qed.
Lemma text_short fuel op l t r : byte_list (op :: l) -> prefix_t x op = None -> text fuel x "" (op :: l) = Some (t, r) -> (String.length t < 64)%nat.
Proof.
  intros Hb Hp. destruct fuel as [|fuel]; [discriminate|]. cbn [text]. destruct (op_text op l) as [n|] eqn:En; [|discriminate]. rewrite Hp. apply bl_tail in Hb. destruct Hb as [_ Hb].
  destruct (handler x op l) as [[u r']|] eqn:Eh; [|discriminate]. intros Ht. replace t with (n ++ u) by (injection Ht as <- _; reflexivity). apply short_op_text in En.
  assert (Su : short 42 u). { destruct (Z.eq_dec op 15) as [->|H15]; [apply (lim_handler15 l u r' Hb Eh)|]. eapply short_le; [apply (lim_handler op H15 l u r' Hb Eh)|lia]. }
  pose proof (short_app _ _ _ _ En Su) as S. unfold short in S. lia.
Qed.
End NoPrefix.
(** The line of an instruction without prefixes is complete. *)
Lemma not_cut E base s s1 : flat E base (ar s) -> wf_state s -> ~ prefix_byte (ipbyte (ar s) 0) -> has_char "$" (middle E s s1) = false.
Proof.
  intros F W Np. unfold middle, has_char. apply negb_false_iff. rewrite !every_app.
  assert (D : every (fun d => negb (Ascii.eqb "$" d)) (debug_string E s s1) = true).
  { unfold debug_string. pose proof (window_range E base s F W) as Hb.
    assert (Ew : exists tl, window E s = ipbyte (ar s) 0 :: tl).
    { unfold window. cbn [seq map]. rewrite (peek_flat E base) by (auto; apply W). eexists. f_equal. unfold ipbyte. unfold wrap. change (2 ^ 16) with 65536. rewrite Z.mod_mod by lia. reflexivity. }
    destruct Ew as [tl Ew]. rewrite Ew in *. destruct (text 6 (ctx0 s s1) "" _) as [[t r]|] eqn:Et; [|reflexivity].
    assert (Hp : prefix_t (ctx0 s s1) (ipbyte (ar s) 0) = None). { unfold prefix_byte in Np. cbn [In] in Np. unfold prefix_t. repeat match goal with |- (if ?b then _ else _) = _ => replace b with false by lia end. reflexivity. }
    pose proof (text_short (ctx0 s s1) eq_refl eq_refl eq_refl 6 _ tl t r Hb Hp Et) as L. unfold cut. replace (String.length t <? 64)%nat with true by (symmetry; apply Nat.ltb_lt, L).
    apply negb_false_iff. apply (plain_no_dollar t). eapply clean_text; [|exact Et]. reflexivity. }
  rewrite D, andb_true_r. destruct (d_rep (dc s1) =? 0); [reflexivity|]. rewrite !every_app.
  assert (X : forall n v, every (fun d => negb (Ascii.eqb "$" d)) (fmt_x n v) = true) by (intros n v; apply (digits_without "$"); [reflexivity|apply fmt_x_char]). rewrite !X. reflexivity.
Qed.
