(** Proofs about the trace: numbers, characters, lines. *)
From Coq Require Import String Ascii.
From Verif Require Import Base Cpu Ops Machine Spec SpecRun SpecTop SpecCodes PBase PExec PTop2 PNative10 PCodes Dump SpecDump PDump TraceText SpecTrace.
Local Open Scope string_scope.
Local Open Scope Z_scope.

(** ** Numbers *)
Lemma ddigit_nat d : 0 <= d < 10 -> Z.of_nat (nat_of_ascii (ddigit d)) = 48 + d.
Proof. intros H. unfold ddigit. rewrite nat_ascii_embedding by lia. lia. Qed.
Lemma dec_number_app t : forall acc r, dec_number acc (t ++ r) = match dec_number acc t with Some v => dec_number v r | None => None end.
Proof. induction t as [|c t IH]; intros acc r; [reflexivity|]. cbn [append dec_number]. destruct (_ && _); [apply IH|reflexivity]. Qed.
Lemma ddigit_number d acc r : 0 <= d < 10 -> dec_number acc (String (ddigit d) r) = dec_number (10 * acc + d) r.
Proof. intros H. cbn [dec_number]. rewrite ddigit_nat by exact H. replace ((48 <=? 48 + d) && (48 + d <=? 57)) with true by lia. f_equal. lia. Qed.
Definition starts_digit (t : string) : Prop := exists d r, 0 <= d < 10 /\ t = String (ddigit d) r.
Lemma ddigits_spec n : forall v acc, 0 <= v < 10 ^ (Z.of_nat n + 1) -> exists t, ddigits n v acc = t ++ acc /\ dec_number 0 t = Some v /\ starts_digit t.
Proof.
  induction n as [|n IH]; intros v acc Hv.
  - change (10 ^ (Z.of_nat 0 + 1)) with 10 in Hv. cbn [ddigits]. exists (String (ddigit (v mod 10)) ""). split; [reflexivity|]. split; [rewrite ddigit_number by lia; cbn [dec_number]; f_equal; lia|].
    exists (v mod 10), "". split; [lia|reflexivity].
  - cbn [ddigits]. destruct (Z.eqb_spec (v / 10) 0) as [E|E].
    + exists (String (ddigit (v mod 10)) ""). split; [reflexivity|]. split; [rewrite ddigit_number by lia; cbn [dec_number]; f_equal; lia|]. exists (v mod 10), "". split; [lia|reflexivity].
    + rewrite Nat2Z.inj_succ in Hv. replace (Z.succ (Z.of_nat n) + 1) with (Z.succ (Z.of_nat n + 1)) in Hv by lia. rewrite Z.pow_succ_r in Hv by lia.
      destruct (IH (v / 10) (String (ddigit (v mod 10)) acc) ltac:(lia)) as (t & Et & Ht & (d & r & Hd & Er)). exists (t ++ String (ddigit (v mod 10)) "").
      split; [rewrite Et, app_assoc_s; reflexivity|]. split; [rewrite dec_number_app, Ht, ddigit_number by lia; cbn [dec_number]; f_equal; lia|].
      exists d, (r ++ String (ddigit (v mod 10)) ""). split; [exact Hd|]. rewrite Er. reflexivity.
Qed.
Lemma fmt_i_spec v : 0 <= v < 10 ^ 20 -> dec_number 0 (fmt_i v) = Some v /\ starts_digit (fmt_i v).
Proof.
  intros H. unfold fmt_i. replace (v <? 0) with false by lia. destruct (ddigits_spec 19 v "" H) as (t & -> & H1 & H2). rewrite app_empty. auto.
Qed.
Lemma skip_digit d r : 0 <= d < 10 -> skip_blanks (String (ddigit d) r) = String (ddigit d) r.
Proof.
  intros H. assert (C : d = 0 \/ d = 1 \/ d = 2 \/ d = 3 \/ d = 4 \/ d = 5 \/ d = 6 \/ d = 7 \/ d = 8 \/ d = 9) by lia.
  destruct C as [->|[->|[->|[->|[->|[->|[->|[->|[->| ->]]]]]]]]]; reflexivity.
Qed.
Lemma skip_blanks_pad n t : skip_blanks (blanks n ++ t) = skip_blanks t. Proof. induction n as [|n IH]; [reflexivity|exact IH]. Qed.
Lemma blanks_length n : String.length (blanks n) = n. Proof. induction n as [|n IH]; [reflexivity|]. cbn [blanks String.length]. rewrite IH. reflexivity. Qed.
Lemma pad_i_ok w v : 0 <= v < 10 ^ 20 -> dec_text w v (pad_i w v).
Proof.
  intros H. destruct (fmt_i_spec v H) as [H1 (d & r & Hd & H2)]. unfold pad_i. cbv zeta. split; [|split].
  - rewrite length_app, blanks_length. lia.
  - rewrite skip_blanks_pad, H2, skip_digit by exact Hd. discriminate.
  - rewrite skip_blanks_pad. rewrite H2 in H1 |- *. rewrite skip_digit by exact Hd. exact H1.
Qed.
Lemma fmt_x0 v : 0 <= v < 16 ^ 16 -> hex_value v (fmt_x 0 v).
Proof.
  intros H. destruct (xdigits_spec 15 v "" H) as (t & Et & Ht & L & _). unfold fmt_x. cbn [Nat.sub zeros_text append]. rewrite Et, app_empty. split; [|exact Ht].
  intros ->. cbn in L. lia.
Qed.

(** ** Characters *)
Lemma every_app P a b : every P (a ++ b) = every P a && every P b.
Proof. induction a as [|c a IH]; [reflexivity|]. cbn [append every]. rewrite IH. apply andb_assoc. Qed.
Lemma every_imp (P Q : ascii -> bool) t : (forall c, P c = true -> Q c = true) -> every P t = true -> every Q t = true.
Proof. intros H. induction t as [|c t IH]; [reflexivity|]. cbn [every]. rewrite !andb_true_iff. intros [H1 H2]. auto. Qed.
(** The characters the texts are made of. *)
Definition text_char (c : ascii) : bool := plain_char c && negb (Ascii.eqb c "$").
Definition clean (t : string) : bool := every text_char t.
Lemma clean_app a b : clean a = true -> clean b = true -> clean (a ++ b) = true. Proof. intros H1 H2. unfold clean. rewrite every_app, andb_true_iff. auto. Qed.
Lemma clean_plain t : clean t = true -> plain t = true.
Proof. apply every_imp. intros c. unfold text_char. rewrite andb_true_iff. tauto. Qed.
Lemma all16 (P : Z -> Prop) : P 0 -> P 1 -> P 2 -> P 3 -> P 4 -> P 5 -> P 6 -> P 7 -> P 8 -> P 9 -> P 10 -> P 11 -> P 12 -> P 13 -> P 14 -> P 15 -> forall d, 0 <= d < 16 -> P d.
Proof.
  intros. assert (C : d = 0 \/ d = 1 \/ d = 2 \/ d = 3 \/ d = 4 \/ d = 5 \/ d = 6 \/ d = 7 \/ d = 8 \/ d = 9 \/ d = 10 \/ d = 11 \/ d = 12 \/ d = 13 \/ d = 14 \/ d = 15) by lia.
  repeat (destruct C as [->|C]; [assumption|]). subst. assumption.
Qed.
(** Digits: no other character of the line layout. *)
Definition digit_char (c : ascii) : bool := match digit_value c with Some _ => true | None => Ascii.eqb c "-" end.
Lemma digit_clean t : every digit_char t = true -> clean t = true.
Proof.
  apply every_imp. intros c. unfold digit_char, text_char, digit_value, plain_char.
  destruct ((48 <=? Z.of_nat (nat_of_ascii c)) && (Z.of_nat (nat_of_ascii c) <=? 57)) eqn:E1; [|destruct ((97 <=? Z.of_nat (nat_of_ascii c)) && (Z.of_nat (nat_of_ascii c) <=? 102)) eqn:E2].
  - intros _. apply andb_true_iff. split; [apply andb_true_iff; rewrite !Nat.leb_le; lia|]. destruct (Ascii.eqb_spec c "$") as [->|]; [discriminate E1|reflexivity].
  - intros _. apply andb_true_iff. split; [apply andb_true_iff; rewrite !Nat.leb_le; lia|]. destruct (Ascii.eqb_spec c "$") as [->|]; [discriminate E2|reflexivity].
  - intros H. apply Ascii.eqb_eq in H. subst c. reflexivity.
Qed.
Lemma xdigit_char d : 0 <= d < 16 -> digit_char (xdigit d) = true.
Proof. intros H. unfold digit_char. rewrite xdigit_value by exact H. reflexivity. Qed.
Lemma xdigits_char n : forall v acc, every digit_char acc = true -> every digit_char (xdigits n v acc) = true.
Proof.
  induction n as [|n IH]; intros v acc H; cbn [xdigits]; cbv zeta.
  - cbn [every]. rewrite H, xdigit_char by lia. reflexivity.
  - assert (H' : every digit_char (String (xdigit (v mod 16)) acc) = true) by (cbn [every]; rewrite H, xdigit_char by lia; reflexivity).
    destruct (_ =? 0); [exact H'|apply IH; exact H'].
Qed.
Lemma zeros_char n : every digit_char (zeros_text n) = true. Proof. induction n as [|n IH]; [reflexivity|exact IH]. Qed.
Lemma fmt_x_char n v : every digit_char (fmt_x n v) = true.
Proof. unfold fmt_x. cbv zeta. rewrite every_app, zeros_char, xdigits_char by reflexivity. reflexivity. Qed.
Lemma ddigit_char d : 0 <= d < 10 -> digit_char (ddigit d) = true.
Proof. intros H. unfold digit_char, digit_value. rewrite ddigit_nat by exact H. replace ((48 <=? 48 + d) && (48 + d <=? 57)) with true by lia. reflexivity. Qed.
Lemma ddigits_char n : forall v acc, every digit_char acc = true -> every digit_char (ddigits n v acc) = true.
Proof.
  induction n as [|n IH]; intros v acc H; cbn [ddigits]; cbv zeta.
  - cbn [every]. rewrite H, ddigit_char by lia. reflexivity.
  - assert (H' : every digit_char (String (ddigit (v mod 10)) acc) = true) by (cbn [every]; rewrite H, ddigit_char by lia; reflexivity).
    destruct (_ =? 0); [exact H'|apply IH; exact H'].
Qed.
Lemma fmt_i_char v : every digit_char (fmt_i v) = true.
Proof. unfold fmt_i. destruct (v <? 0); [rewrite every_app; cbn [every]|]; rewrite ddigits_char by reflexivity; reflexivity. Qed.
Lemma clean_x n v : clean (fmt_x n v) = true. Proof. apply digit_clean, fmt_x_char. Qed.
Lemma clean_i v : clean (fmt_i v) = true. Proof. apply digit_clean, fmt_i_char. Qed.
Lemma clean_name l n : forallb clean l = true -> clean (name_of l n) = true.
Proof.
  intros H. unfold name_of. destruct (nth_in_or_default (Z.to_nat n) l "") as [I| ->]; [|reflexivity]. rewrite forallb_forall in H. auto.
Qed.
(** Texts the makers print are clean. *)
Definition mclean (f : maker) : Prop := forall l t r, f l = Some (t, r) -> clean t = true.
Lemma mc_say t : clean t = true -> mclean (say t). Proof. intros H l u r [= <- <-]. exact H. Qed.
Lemma mc_then f g : mclean f -> mclean g -> mclean (f >> g).
Proof.
  intros F G l t r. unfold then_. destruct (f l) as [[a l1]|] eqn:E1; [|discriminate]. destruct (g l1) as [[b l2]|] eqn:E2; [|discriminate]. intros [= <- <-]. apply clean_app; eauto.
Qed.
Lemma mc_r8 f : (forall v, clean (f v) = true) -> mclean (r8 f). Proof. intros H [|b l] t r; [discriminate|]. intros [= <- <-]. apply H. Qed.
Lemma mc_r16 f : (forall v, clean (f v) = true) -> mclean (r16 f). Proof. intros H [|a [|b l]] t r; try discriminate. intros [= <- <-]. apply H. Qed.
Lemma mc_r32 f : (forall v, clean (f v) = true) -> mclean (r32 f). Proof. intros H [|a [|b [|c [|d l]]]] t r; try discriminate. intros [= <- <-]. apply H. Qed.
Lemma clean_cons c t : text_char c = true -> clean t = true -> clean (String c t) = true. Proof. intros H1 H2. unfold clean. cbn [every]. rewrite H1. exact H2. Qed.
Ltac cl := repeat
  lazymatch goal with
  | |- clean (fmt_x _ _) = true => apply clean_x | |- clean (fmt_i _) = true => apply clean_i | |- clean (name_of _ _) = true => apply clean_name; reflexivity
  | |- clean (name_of (if ?b then _ else _) _) = true => destruct b
  | |- clean (if ?b then _ else _) = true => destruct b
  | |- clean (_ ++ _) = true => apply clean_app
  | |- clean (String _ _) = true => apply clean_cons; [reflexivity|] | |- clean EmptyString = true => reflexivity
  end.
Lemma clean_seg n : clean (seg_t n) = true. Proof. unfold seg_t. cl. Qed.
Lemma clean_regb n : clean (regb_t n) = true. Proof. unfold regb_t. cl. Qed.
Lemma clean_regw x n : clean (regw_t x n) = true. Proof. unfold regw_t. destruct (x_os x); cl. Qed.
Lemma clean_acc x : clean (acc_t x) = true. Proof. unfold acc_t. cl. Qed.
Lemma clean_dseg x : clean (dseg_t x) = true. Proof. apply clean_seg. Qed.
Lemma clean_hex n v : clean (hex n v) = true. Proof. unfold hex. cl. Qed.
Lemma clean_d16 v : clean (disp16_t v) = true. Proof. apply clean_x. Qed.
Lemma clean_open x md m : clean (open_t x md m) = true. Proof. unfold open_t. apply clean_app; [apply clean_seg|reflexivity]. Qed.
Lemma clean_base m : clean (base16 m) = true. Proof. unfold base16. cl. Qed.
Ltac cl2 := repeat
  lazymatch goal with
  | |- clean (fmt_x _ _) = true => apply clean_x | |- clean (fmt_i _) = true => apply clean_i | |- clean (seg_t _) = true => apply clean_seg
  | |- clean (regb_t _) = true => apply clean_regb | |- clean (regw_t _ _) = true => apply clean_regw | |- clean (acc_t _) = true => apply clean_acc
  | |- clean (dseg_t _) = true => apply clean_dseg | |- clean (hex _ _) = true => apply clean_hex | |- clean (disp16_t _) = true => apply clean_d16
  | |- clean (open_t _ _ _) = true => apply clean_open | |- clean (base16 _) = true => apply clean_base | |- clean (name_of _ _) = true => apply clean_name; reflexivity
  | |- clean (if ?b then _ else _) = true => destruct b
  | |- clean (_ ++ _) = true => apply clean_app
  | |- clean (String _ _) = true => apply clean_cons; [reflexivity|] | |- clean EmptyString = true => reflexivity
  | |- clean ?t = true => is_var t; assumption
  end.
Ltac mc := repeat
  lazymatch goal with
  | |- mclean (say _) => apply mc_say; solve [cl2] | |- mclean (_ >> _) => apply mc_then | |- mclean (r8 _) => apply mc_r8; intros ?v; solve [cl2] | |- mclean (r16 _) => apply mc_r16; intros ?v; solve [cl2]
  | |- mclean (r32 _) => apply mc_r32; intros ?v; solve [cl2] | |- mclean (if ?b then _ else _) => destruct b
  end.
Lemma mc_imm8 : mclean imm8. Proof. unfold imm8. mc. Qed.
Lemma mc_immx x : mclean (immx x). Proof. unfold immx. mc. Qed.
Lemma mc_sib md0 dsp : clean dsp = true -> mclean (sib_t md0 dsp).
Proof.
  intros H [|sib l] t r; [discriminate|]. unfold sib_t. cbv zeta. destruct (md0 && _).
  - intros Hr. revert Hr. apply mc_r32. intros v. cl2.
  - intros Hr. injection Hr as <- <-. cl2.
Qed.
Lemma mc_mem x md m : mclean (mem_t x md m).
Proof.
  unfold mem_t. mc; try (apply mc_sib; reflexivity).
  intros l t r. match goal with |- match ?f l with _ => _ end = _ -> _ => assert (F : mclean f) by mc; destruct (f l) as [[dsp l1]|] eqn:E1; [|discriminate] end. apply F in E1.
  destruct (m =? 4); [|intros [= <- <-]; cl2]. apply mc_then; [apply mc_say; cl2|apply mc_sib, E1].
Qed.
Lemma mc_rm x w b : mclean (rm_t x w b). Proof. unfold rm_t. destruct (_ =? 3); [apply mc_say; cl2|apply mc_mem]. Qed.
Lemma mc_modrm2 x wr wm pos : mclean (modrm_t2 x wr wm pos).
Proof.
  intros [|b l] t r; [discriminate|]. unfold modrm_t2. destruct pos; [apply mc_rm| |]; apply mc_then; try apply mc_rm; apply mc_say; cl2.
Qed.
Lemma mc_modrm x w pos : mclean (modrm_t x w pos). Proof. apply mc_modrm2. Qed.
Lemma mc_mov_seg x f : mclean (mov_seg_t x f). Proof. intros [|b l] t r; [discriminate|]. unfold mov_seg_t. destruct f; apply mc_then; try apply mc_rm; apply mc_say; cl2. Qed.
Lemma mc_misc x w : mclean (misc_t x w).
Proof. intros [|b l] t r; [discriminate|]. unfold misc_t. apply mc_then; [apply mc_modrm|]. destruct (_ =? 0); [destruct w; [apply mc_immx|apply mc_imm8]|apply mc_say; reflexivity]. Qed.
Lemma mc_str x di si b a : clean b = true -> clean a = true -> mclean (str_t x di si b a). Proof. intros H1 H2. unfold str_t. apply mc_say. cl2. Qed.
Lemma mc_moffs x : mclean (moffs_t x). Proof. unfold moffs_t. mc. Qed.
Lemma mc_rel16 : mclean rel16. Proof. unfold rel16. mc. Qed.
Lemma mc_far : mclean far_t. Proof. intros [|a [|b [|c [|d l]]]] t r; try discriminate. intros [= <- <-]. cl2. Qed.
Lemma mc_if (b : bool) f g : mclean f -> mclean g -> mclean (if b then f else g). Proof. destruct b; auto. Qed.
Ltac mh := repeat
  lazymatch goal with
  | |- mclean (if _ then _ else _) => apply mc_if
  | |- mclean rel16 => apply mc_rel16 | |- mclean far_t => apply mc_far | |- mclean (modrm_t _ _ _) => apply mc_modrm | |- mclean (modrm_t2 _ _ _ _) => apply mc_modrm2
  | |- mclean (moffs_t _) => apply mc_moffs | |- mclean (mov_seg_t _ _) => apply mc_mov_seg | |- mclean (misc_t _ _) => apply mc_misc | |- mclean imm8 => apply mc_imm8
  | |- mclean (immx _) => apply mc_immx | |- mclean (str_t _ _ _ _ _) => apply mc_str; cl2
  | |- mclean (say _) => apply mc_say; cl2 | |- mclean (_ >> _) => apply mc_then
  | |- mclean (r8 _) => apply mc_r8; intros ?v; cl2 | |- mclean (r16 _) => apply mc_r16; intros ?v; cl2 | |- mclean (r32 _) => apply mc_r32; intros ?v; cl2
  end.
Lemma mc_handler0F x op : mclean (handler0F x op). Proof. unfold handler0F. mh. Qed.
Lemma clean_name0F b n : op_names0F b = Some n -> clean n = true.
Proof. unfold op_names0F. repeat match goal with |- (if ?b then _ else _) = _ -> _ => destruct b; [intros [= <-]; reflexivity|] end. discriminate. Qed.
Lemma mc_handler x op : mclean (handler x op).
Proof.
  unfold handler. cbv zeta. apply mc_if; [|mh].
  intros [|b l] t r; [discriminate|]. destruct (op_names0F b) as [n|] eqn:En; [|discriminate]. apply mc_then; [apply mc_say; apply clean_app; [reflexivity|eapply clean_name0F; eauto]|apply mc_handler0F].
Qed.
Lemma clean_op_text op l n : op_text op l = Some n -> clean n = true.
Proof.
  unfold op_text. assert (T : forallb (fun e => match e with Some (a, b) => clean a && clean b | None => true end) op_names = true) by (vm_compute; reflexivity).
  destruct (nth_in_or_default (Z.to_nat op) op_names None) as [I| ->]; [|discriminate]. rewrite forallb_forall in T. apply T in I. destruct (nth _ _ _) as [[a b]|]; [|discriminate].
  apply andb_true_iff in I. destruct I as [Ia Ib]. destruct (sub_names op) as [ns|] eqn:Es; [|intros [= <-]; cl2].
  destruct l as [|c l]; [discriminate|]. intros [= <-]. apply clean_app; [|cl2]. apply clean_name. revert Es. unfold sub_names.
  repeat match goal with |- (if ?b then _ else _) = _ -> _ => destruct b; [intros [= <-]; reflexivity|] end. discriminate.
Qed.
Lemma clean_prefix x op t x' : prefix_t x op = Some (t, x') -> clean t = true.
Proof. unfold prefix_t. repeat match goal with |- (if ?b then _ else _) = _ -> _ => destruct b; [intros [= <- <-]; first [apply clean_seg|reflexivity]|] end. discriminate. Qed.
Lemma clean_text fuel : forall x acc l t r, clean acc = true -> text fuel x acc l = Some (t, r) -> clean t = true.
Proof.
  induction fuel as [|fuel IH]; intros x acc l t r Ha; cbn [text]; [discriminate|]. destruct l as [|op l]; [discriminate|].
  destruct (op_text op l) as [n|] eqn:En; [|discriminate]. apply clean_op_text in En.
  assert (Ha' : clean (acc ++ (if (String.length acc =? 0)%nat then "" else " ") ++ n) = true) by cl2.
  destruct (prefix_t x op) as [[u x']|] eqn:Ep.
  - apply clean_prefix in Ep. apply IH. apply clean_app; assumption.
  - destruct (handler x op l) as [[u r']|] eqn:Eh; [|discriminate]. apply mc_handler in Eh. intros [= <- <-]. apply clean_app; assumption.
Qed.
Lemma every_sub P t : forall n m, every P t = true -> every P (substring n m t) = true.
Proof.
  induction t as [|c t IH]; intros n m; [destruct n, m; reflexivity|]. cbn [every]. rewrite andb_true_iff. intros [H1 H2]. destruct n; [|cbn [substring]; apply IH; exact H2].
  destruct m; [reflexivity|]. cbn [substring every]. rewrite H1, IH by exact H2. reflexivity.
Qed.
Lemma plain_cut t : clean t = true -> plain (cut t) = true.
Proof. intros H. unfold cut. destruct (_ <? _)%nat; [apply clean_plain, H|]. unfold plain. rewrite every_app. rewrite every_sub by (apply clean_plain, H). reflexivity. Qed.

(** ** Lines *)
Section Lines.
Context (E : env).
Lemma plain_debug s s' : plain (debug_string E s s') = true.
Proof. unfold debug_string. destruct (text _ _ _ _) as [[t r]|] eqn:Et; [|reflexivity]. apply plain_cut. eapply clean_text; [|exact Et]. reflexivity. Qed.
Lemma plain_bytes n : forall s' cs i, plain (bytes_text E n s' cs i) = true.
Proof. induction n as [|n IH]; intros; cbn [bytes_text]; [reflexivity|]. unfold plain. rewrite !every_app. fold plain. rewrite (clean_plain _ (clean_x _ _)). apply IH. Qed.
(** The text between the place and the tab. *)
Definition middle (s s' : st) : string :=
  (if d_rep (dc s') =? 0 then "" else " Prefix 0x" ++ fmt_x 2 (d_rep (dc s')) ++ " used with wrong opcode 0x" ++ fmt_x 2 (last_opcode (window E s))) ++ " " ++ debug_string E s s'.
Lemma plain_middle s s' : plain (middle s s') = true.
Proof.
  unfold middle, plain. rewrite !every_app. fold plain. rewrite plain_debug. destruct (_ =? 0); [reflexivity|]. rewrite !every_app. fold plain. rewrite !(clean_plain _ (clean_x _ _)). reflexivity.
Qed.
Lemma rest_line s s' : header s ++ rest_of_line E s s' =
  line (pad_i 8 (icount s + 1)) (fmt_x 0 (r_cs (ar s) * 16 + r_ip (ar s))) (fmt_x 4 (r_cs (ar s))) (fmt_x 4 (r_ip (ar s))) (middle s s')
    (bytes_text E (Z.to_nat (d_ipoff (dc s'))) s' (r_cs (ar s)) (r_ip (ar s))).
Proof.
  unfold header, rest_of_line, line, line_start, middle, tab_char, tab, end_of_line, newline. cbn [joined]. rewrite !app_empty. rewrite !app_assoc_s. reflexivity.
Qed.
Lemma place_ok s : wf_regs (ar s) -> 0 <= icount s < 2147483648 ->
  names_place (icount s + 1) (r_cs (ar s)) (r_ip (ar s)) (pad_i 8 (icount s + 1)) (fmt_x 0 (r_cs (ar s) * 16 + r_ip (ar s))) (fmt_x 4 (r_cs (ar s))) (fmt_x 4 (r_ip (ar s))).
Proof.
  intros W Hi. destruct W. unfold inrange in *. change (2 ^ 16) with 65536 in *. split; [apply pad_i_ok; lia|]. split; [rewrite (Z.mul_comm 16); apply fmt_x0; lia|].
  split; apply fmt_x_ok; try lia; change (16 ^ Z.of_nat 4) with 65536; lia.
Qed.
End Lines.
