(** Proofs about the trace: the text of a memory operand denotes its address. *)
From Coq Require Import String Ascii.
From Verif Require Import Base Cpu Ops Machine Spec SpecEa PBase PMem PExec Dump SpecDump PDump TraceText SpecTrace PTrace.
Local Open Scope string_scope.
Local Open Scope Z_scope.

(** ** Reading terms *)
Definition without (c : ascii) (t : string) : bool := every (fun d => negb (Ascii.eqb c d)) t.
Lemma without_app c a b : without c (a ++ b) = without c a && without c b. Proof. apply every_app. Qed.
Lemma digits_without c t : digit_char c = false -> every digit_char t = true -> without c t = true.
Proof. intros H. apply every_imp. intros d Hd. destruct (Ascii.eqb_spec c d) as [->|]; [congruence|reflexivity]. Qed.
Lemma up_to_none c t : without c t = true -> up_to c t = t.
Proof. induction t as [|d t IH]; [reflexivity|]. unfold without in *. cbn [every up_to]. rewrite andb_true_iff. intros [H1 H2]. destruct (Ascii.eqb c d); [discriminate|]. f_equal. auto. Qed.
Lemma up_to_some c t r : without c t = true -> up_to c (t ++ String c r) = t.
Proof. induction t as [|d t IH]; [cbn [append up_to]; rewrite Ascii.eqb_refl; reflexivity|]. unfold without in *. cbn [every append up_to]. rewrite andb_true_iff. intros [H1 H2]. destruct (Ascii.eqb c d); [discriminate|]. f_equal. auto. Qed.
Lemma sub_rest t c r : substring (S (String.length t)) (String.length (t ++ String c r)) (t ++ String c r) = r.
Proof.
  assert (G : forall n, (String.length r <= n)%nat -> substring (S (String.length t)) n (t ++ String c r) = r).
  { induction t as [|d t IH]; intros n Hn; cbn [append String.length substring].
    - revert n Hn. induction r as [|e r IH]; intros n Hn; [destruct n; reflexivity|]. cbn [String.length] in Hn. destruct n as [|n]; [lia|]. cbn [substring]. f_equal. apply IH. lia.
    - destruct n; apply IH, Hn. }
  apply G. rewrite length_app. cbn [String.length]. lia.
Qed.
Lemma eqb_longer t c r : String.eqb t (t ++ String c r) = false.
Proof. apply String.eqb_neq. intros H. apply (f_equal String.length) in H. rewrite length_app in H. cbn [String.length] in H. lia. Qed.
Section Terms.
Context (a : arch).
Lemma sum1 f h v : without "+" h = true -> term_value a h = Some v -> sum_value (S f) a h = Some v.
Proof. intros H1 H2. cbn [sum_value]. rewrite up_to_none by exact H1. rewrite H2, String.eqb_refl. reflexivity. Qed.
Lemma sum2 f h v r w : without "+" h = true -> term_value a h = Some v -> sum_value f a r = Some w -> sum_value (S f) a (h ++ "+" ++ r) = Some (v + w).
Proof. intros H1 H2 H3. cbn [sum_value]. change ("+" ++ r) with (String "+" r). rewrite up_to_some by exact H1. rewrite H2, eqb_longer, sub_rest, H3. reflexivity. Qed.
Lemma term_hex t v : hex_number 0 t = Some v -> term_value a ("0x" ++ t) = Some v. Proof. intros H. exact H. Qed.
Lemma plus_hex t : every digit_char t = true -> without "+" ("0x" ++ t) = true. Proof. intros H. rewrite without_app, (digits_without "+" t eq_refl H). reflexivity. Qed.
Lemma all8 (P : Z -> Prop) : P 0 -> P 1 -> P 2 -> P 3 -> P 4 -> P 5 -> P 6 -> P 7 -> forall d, 0 <= d < 8 -> P d.
Proof.
  intros. assert (C : d = 0 \/ d = 1 \/ d = 2 \/ d = 3 \/ d = 4 \/ d = 5 \/ d = 6 \/ d = 7) by lia. repeat (destruct C as [->|C]; [assumption|]). subst. assumption.
Qed.
Lemma term_d m : 0 <= m < 8 -> term_value a (name_of names_d m) = Some (reg 32 m a) /\ without "+" (name_of names_d m) = true.
Proof. revert m. apply (all8 (fun m => _ = Some (reg 32 m a) /\ _)); split; reflexivity. Qed.
Definition index_t (sib : Z) : string := (if (sib / 8) mod 8 =? 4 then "EIZ" else name_of names_d ((sib / 8) mod 8)) ++ "*" ++ fmt_i (2 ^ (sib / 64)).
Lemma term_index sib : 0 <= sib < 256 -> term_value a (index_t sib) = Some (scaled sib a) /\ without "+" (index_t sib) = true /\ without "]" (index_t sib) = true.
Proof.
  intros H. unfold index_t, scaled. assert (Hi : 0 <= (sib / 8) mod 8 < 8) by lia. assert (Hs : 0 <= sib / 64 < 4) by lia.
  revert Hi Hs. generalize ((sib / 8) mod 8) (sib / 64). intros i k Hi Hk.
  assert (C : k = 0 \/ k = 1 \/ k = 2 \/ k = 3) by lia. revert i Hi.
  destruct C as [->|[->|[->| ->]]];
  refine (all8 (fun i => term_value a ((if i =? 4 then "EIZ" else name_of names_d i) ++ _) = Some (if i =? 4 then 0 else reg 32 i a * _) /\ without _ ((if i =? 4 then "EIZ" else name_of names_d i) ++ _) = true /\ without _ ((if i =? 4 then "EIZ" else name_of names_d i) ++ _) = true) _ _ _ _ _ _ _ _);
  (split; [reflexivity|split; reflexivity]).
Qed.
Lemma base16_sum f m : 0 <= m < 8 -> sum_value (S (S f)) a (base16 m) = Some (ea_base m a).
Proof.
  revert m. apply all8; reflexivity.
Qed.
Lemma base16_disp m r w : 0 <= m < 8 -> sum_value 1 a r = Some w -> sum_value 3 a (base16 m ++ "+" ++ r) = Some (ea_base m a + w).
Proof.
  intros Hm Hr. assert (H2 : sum_value 2 a r = Some w).
  { revert Hr. cbn [sum_value]. destruct (term_value a (up_to "+" r)); [|discriminate]. destruct (String.eqb _ _); [auto|discriminate]. }
  revert m Hm. apply all8; unfold base16, ea_base, name_of; cbn [nth Z.to_nat Pos.to_nat Pos.iter_op Init.Nat.add].
  all: try (match goal with |- sum_value 3 a (?t ++ _) = _ => let h := eval vm_compute in (up_to "+" t) in let u := eval vm_compute in (substring (S (String.length h)) 5 t) in
    lazymatch u with "" => apply (sum2 2 t) | _ => change t with (h ++ "+" ++ u); rewrite !app_assoc_s; rewrite <- Z.add_assoc; apply (sum2 2 h); [reflexivity|reflexivity|]; apply (sum2 1 u) end; [reflexivity|reflexivity|assumption] end).
Qed.
End Terms.

(** ** Operand texts *)
Definition byte_list (l : list Z) : Prop := forall b, In b l -> 0 <= b < 256.
Lemma fmt_hex n v : 0 <= v < 4294967296 -> hex_number 0 (fmt_x n v) = Some v.
Proof.
  intros H. assert (G : hex_value v (fmt_x 0 v)) by (apply fmt_x0; change (16 ^ 16) with 18446744073709551616; lia). destruct G as [_ G].
  unfold fmt_x in *. cbn [Nat.sub zeros_text append] in G. cbv zeta. rewrite hex_number_app, zeros_value. exact G.
Qed.
Lemma sx_low v : 0 <= v < 256 -> sx 16 v = low 16 (signed 8 v).
Proof. intros H. unfold sx, signed, low. change (2 ^ 16) with 65536. change (2 ^ (8 - 1)) with 128. change (2 ^ 8) with 256. destruct (v <? 128); lia. Qed.
Definition disp_v (v : Z) : Z := if v <? 32768 then v else 4294901760 + v.
Lemma disp_v_range v : 0 <= v < 65536 -> 0 <= disp_v v < 4294967296. Proof. unfold disp_v. destruct (v <? 32768) eqn:E; lia. Qed.
Lemma disp_v_low v k : 0 <= v < 65536 -> low 32 (k + disp_v v) = low 32 (k + signed 16 v).
Proof. intros H. unfold disp_v, signed, low. change (2 ^ 32) with 4294967296. change (2 ^ (16 - 1)) with 32768. change (2 ^ 16) with 65536. destruct (v <? 32768) eqn:E; lia. Qed.
Lemma sx_signed v : 0 <= v < 256 -> signed 16 (sx 16 v) = signed 8 v.
Proof. intros H. unfold sx, signed. change (2 ^ 16) with 65536. change (2 ^ (8 - 1)) with 128. change (2 ^ 8) with 256. change (2 ^ (16 - 1)) with 32768. destruct (Z.ltb_spec v 128); [destruct (Z.ltb_spec v 32768); lia|]. destruct (Z.ltb_spec (65536 - 256 + v) 32768); lia. Qed.
Lemma sx_range v : 0 <= v < 256 -> 0 <= sx 16 v < 65536. Proof. intros H. unfold sx. change (2 ^ 16) with 65536. destruct (v <? 128) eqn:E; lia. Qed.
Lemma hex_sum f a n v : 0 <= v < 4294967296 -> sum_value (S f) a ("0x" ++ fmt_x n v) = Some v.
Proof. intros H. apply sum1; [apply plus_hex, fmt_x_char|apply term_hex, fmt_hex, H]. Qed.
Lemma hex_bracket n v : without "]" (fmt_x n v) = true. Proof. apply digits_without; [reflexivity|apply fmt_x_char]. Qed.
Lemma name_bracket m : 0 <= m < 8 -> without "]" (name_of names_d m) = true. Proof. revert m. apply all8; reflexivity. Qed.
Lemma base_bracket m : 0 <= m < 8 -> without "]" (base16 m) = true. Proof. revert m. apply all8; reflexivity. Qed.
Lemma low_small v : 0 <= v < 4294967296 -> low 32 v = v. Proof. intros H. unfold low. change (2 ^ 32) with 4294967296. lia. Qed.
Lemma reg32 m a : 0 <= m < 8 -> 0 <= reg 32 m a < 4294967296.
Proof. intros H. apply (reg_range 32 m a width32). lia. Qed.
Lemma mem_value x p a md m t o r : x_seg x = p_seg p -> x_as x = p_as p -> byte_list t -> 0 <= md < 3 -> 0 <= m < 8 -> real_offset p md m a t = Some (o, r) ->
  exists e, mem_t x md m t = Some (open_t x md m ++ e ++ "]", r) /\ without "]" e = true /\ offset_value a e = Some o.
Proof.
  intros Hs Ha Hb Hmd Hm. unfold real_offset, mem_t, offset_value. rewrite Ha. destruct (p_as p).
  - destruct (Z.eqb_spec md 0) as [->|Hn].
    + destruct (Z.eqb_spec m 4) as [->|H4].
      * destruct t as [|sib u]; [discriminate|]. assert (Bs : 0 <= sib < 256) by (apply Hb; left; reflexivity). destruct (term_index a sib Bs) as (T1 & T2 & T3).
        unfold then_, say, sib_t. cbn [andb]. cbv zeta. change ((if (sib / 8) mod 8 =? 4 then "EIZ" else name_of names_d ((sib / 8) mod 8)) ++ "*" ++ fmt_i (2 ^ (sib / 64))) with (index_t sib).
        destruct (sib mod 8 =? 5).
        -- destruct u as [|b0 [|b1 [|b2 [|b3 u]]]]; try discriminate. cbn [dword r32]. intros [= <- <-]. exists (index_t sib). split; [cbn [append]; reflexivity|]. split; [exact T3|].
           rewrite (sum1 a 2 _ _ T2 T1). reflexivity.
        -- intros [= <- <-]. destruct (term_d a (sib mod 8) ltac:(lia)) as [D1 D2]. exists (index_t sib ++ "+" ++ name_of names_d (sib mod 8)). split; [rewrite !app_assoc_s; reflexivity|].
           split; [rewrite !without_app, T3, name_bracket by lia; reflexivity|]. rewrite (sum2 a 2 _ _ _ _ T2 T1 (sum1 a 1 _ _ D2 D1)). reflexivity.
      * destruct (Z.eqb_spec m 5) as [->|H5].
        -- destruct t as [|b0 [|b1 [|b2 [|b3 t]]]]; try discriminate. cbn [dword r32]. intros [= <- <-].
           assert (B : 0 <= b0 < 256 /\ 0 <= b1 < 256 /\ 0 <= b2 < 256 /\ 0 <= b3 < 256) by (repeat split; apply Hb; cbn [In]; tauto).
           exists ("0x" ++ fmt_x 0 (b0 + 256 * b1 + 65536 * b2 + 16777216 * b3)). split; [rewrite !app_assoc_s; reflexivity|]. split; [rewrite without_app, hex_bracket; reflexivity|].
           rewrite hex_sum by lia. cbn [option_map]. rewrite low_small by lia. reflexivity.
        -- intros [= <- <-]. destruct (term_d a m Hm) as [D1 D2]. exists (name_of names_d m). split; [reflexivity|]. split; [apply name_bracket, Hm|]. rewrite (sum1 a 2 _ _ D2 D1). cbn [option_map]. rewrite low_small by (apply reg32, Hm). reflexivity.
    + assert (HD : forall d u, disp32 md t = Some (d, u) -> byte_list u /\ exists v, (if md =? 1 then r8 (fun v => "+0x" ++ fmt_x 0 (sx 16 v)) else r32 (fun v => "+0x" ++ fmt_x 0 (v mod 65536))) t = Some ("+" ++ "0x" ++ fmt_x 0 v, u) /\ v = low 16 d /\ 0 <= v < 65536).
      { intros d u. unfold disp32. destruct (Z.eqb_spec md 1) as [->|H1].
        - destruct t as [|b t]; [discriminate|]. intros [= <- <-]. assert (B : 0 <= b < 256) by (apply Hb; left; reflexivity). split; [intros c Hc; apply Hb; right; exact Hc|].
          exists (sx 16 b). split; [reflexivity|]. split; [apply sx_low, B|apply sx_range, B].
        - replace (md =? 2) with true by lia. destruct t as [|b0 [|b1 [|b2 [|b3 t]]]]; try discriminate. cbn [dword r32]. intros [= <- <-]. split; [intros c Hc; apply Hb; do 4 right; exact Hc|].
          eexists. split; [reflexivity|]. unfold low. change (2 ^ 16) with 65536. split; [reflexivity|]. lia. }
      destruct (disp32 md t) as [[d u]|] eqn:Ed; [|discriminate]. destruct (HD d u eq_refl) as (Hu & v & -> & Ev & Bv). clear HD.
      destruct (Z.eqb_spec m 4) as [->|H4].
      * destruct u as [|sib u]; [discriminate|]. assert (Bs : 0 <= sib < 256) by (apply Hu; left; reflexivity). destruct (term_index a sib Bs) as (T1 & T2 & T3). destruct (term_d a (sib mod 8) ltac:(lia)) as [D1 D2].
        unfold then_, say, sib_t. cbn [andb]. cbv zeta. change ((if (sib / 8) mod 8 =? 4 then "EIZ" else name_of names_d ((sib / 8) mod 8)) ++ "*" ++ fmt_i (2 ^ (sib / 64))) with (index_t sib).
        intros [= <- <-]. exists (index_t sib ++ "+" ++ name_of names_d (sib mod 8) ++ "+" ++ "0x" ++ fmt_x 0 v). split; [rewrite !app_assoc_s; reflexivity|].
        split; [rewrite !without_app, T3, name_bracket, hex_bracket by lia; reflexivity|].
        rewrite (sum2 a 2 _ _ _ _ T2 T1 (sum2 a 1 _ _ _ _ D2 D1 (hex_sum 0 a 0 v ltac:(lia)))). cbn [option_map]. subst v. do 2 f_equal. lia.
      * intros [= <- <-]. destruct (term_d a m Hm) as [D1 D2]. exists (name_of names_d m ++ "+" ++ "0x" ++ fmt_x 0 v). split; [rewrite !app_assoc_s; reflexivity|].
        split; [rewrite !without_app, name_bracket, hex_bracket by lia; reflexivity|]. rewrite (sum2 a 2 _ _ _ _ D2 D1 (hex_sum 1 a 0 v ltac:(lia))). cbn [option_map]. subst v. reflexivity.
  - unfold disp. destruct (Z.eqb_spec md 0) as [->|Hn].
    + cbn [Z.eqb orb]. destruct (Z.eqb_spec m 6) as [->|H6].
      * destruct t as [|b0 [|b1 t]]; try discriminate. intros [= <- <-]. assert (B : 0 <= b0 < 256 /\ 0 <= b1 < 256) by (split; apply Hb; cbn [In]; tauto). set (v := b0 + 256 * b1) in *. assert (Bv : 0 <= v < 65536) by (unfold v; lia).
        exists ("0x" ++ (if v <? 32768 then fmt_x 4 v else disp16_t v)). cbn [r16]. fold v. split; [rewrite !app_assoc_s; reflexivity|].
        pose proof (disp_v_range v Bv) as Br. split; [rewrite without_app; unfold disp16_t; destruct (v <? 32768); rewrite hex_bracket; reflexivity|].
        replace (sum_value 3 a ("0x" ++ (if v <? 32768 then fmt_x 4 v else disp16_t v))) with (Some (disp_v v)); [cbn [option_map andb]; f_equal; apply (disp_v_low v 0 Bv)|].
        unfold disp16_t, disp_v in *. destruct (v <? 32768); symmetry; apply hex_sum; lia.
      * intros [= <- <-]. exists (base16 m). split; [reflexivity|]. split; [apply base_bracket, Hm|]. rewrite base16_sum by exact Hm. cbn [andb option_map]. rewrite Z.add_0_r. reflexivity.
    + destruct (Z.eqb_spec md 1) as [->|H1].
      * destruct t as [|b t]; [discriminate|]. intros [= <- <-]. assert (B : 0 <= b < 256) by (apply Hb; left; reflexivity). pose proof (sx_range b B) as Bs. pose proof (disp_v_range _ Bs) as Br.
        exists (base16 m ++ "+" ++ "0x" ++ disp16_t (sx 16 b)). split; [cbn [r8]; rewrite !app_assoc_s; reflexivity|]. split; [rewrite !without_app, base_bracket by exact Hm; unfold disp16_t; rewrite hex_bracket; reflexivity|].
        change (disp16_t (sx 16 b)) with (fmt_x 0 (disp_v (sx 16 b))). rewrite (base16_disp a m _ (disp_v (sx 16 b)) Hm (hex_sum 0 a 0 _ Br)). cbn [option_map andb Z.eqb]. rewrite disp_v_low, sx_signed by assumption. reflexivity.
      * replace (md =? 2) with true by lia. cbn [orb]. destruct t as [|b0 [|b1 t]]; try discriminate. intros [= <- <-]. assert (B : 0 <= b0 < 256 /\ 0 <= b1 < 256) by (split; apply Hb; cbn [In]; tauto).
        set (v := b0 + 256 * b1) in *. assert (Bv : 0 <= v < 65536) by (unfold v; lia). pose proof (disp_v_range v Bv) as Br.
        exists (base16 m ++ "+" ++ "0x" ++ disp16_t v). cbn [r16]. fold v. split; [rewrite !app_assoc_s; reflexivity|]. split; [rewrite !without_app, base_bracket by exact Hm; unfold disp16_t; rewrite hex_bracket; reflexivity|].
        change (disp16_t v) with (fmt_x 0 (disp_v v)). rewrite (base16_disp a m _ (disp_v v) Hm (hex_sum 0 a 0 _ Br)). cbn [option_map andb]. rewrite disp_v_low by exact Bv. replace ((md =? 0) && (m =? 6)) with false by lia. reflexivity.
Qed.

(** ** Where the operand text stands *)
Definition nc (t : string) : bool := without ":" t.
Lemma nc_app a b : nc (a ++ b) = nc a && nc b. Proof. apply every_app. Qed.
Lemma nc_hex n v : nc (fmt_x n v) = true. Proof. apply digits_without; [reflexivity|apply fmt_x_char]. Qed.
Lemma nc_name l n : forallb nc l = true -> nc (name_of l n) = true.
Proof. intros H. unfold name_of. destruct (nth_in_or_default (Z.to_nat n) l "") as [I| ->]; [|reflexivity]. rewrite forallb_forall in H. auto. Qed.
Lemma nc_regb n : nc (regb_t n) = true. Proof. unfold regb_t. rewrite nc_app, nc_name by reflexivity. reflexivity. Qed.
Lemma nc_regw x n : nc (regw_t x n) = true. Proof. unfold regw_t. rewrite nc_app, nc_name by (destruct (x_os x); reflexivity). reflexivity. Qed.
Lemma nc_seg n : nc (seg_t n) = true. Proof. unfold seg_t. rewrite nc_app, nc_name by reflexivity. reflexivity. Qed.
Lemma shown_step a b c d r : Ascii.eqb c ":" = false -> shown_operand (String a (String b (String c (String d r)))) = shown_operand (String b (String c (String d r))).
Proof. intros H. cbn [shown_operand]. rewrite H. reflexivity. Qed.
Lemma shown_here t : forall a b r, nc t = true -> Ascii.eqb a ":" = false -> Ascii.eqb b ":" = false ->
  shown_operand (t ++ String a (String b (String ":" (String "[" r)))) = Some (String a (String b ""), up_to "]" r).
Proof.
  induction t as [|c t IH]; intros a b r Ht Ha Hb; [reflexivity|]. unfold nc, without in *. cbn [every] in Ht. apply andb_true_iff in Ht. destruct Ht as [_ Ht].
  rewrite <- (IH a b r Ht Ha Hb). destruct t as [|c2 [|c3 t]]; cbn [append].
  - apply shown_step, Hb.
  - apply shown_step, Ha.
  - cbn [every] in Ht. rewrite !andb_true_iff in Ht. destruct Ht as (_ & Ht & _). destruct t as [|c4 t]; cbn [append]; apply shown_step; rewrite Ascii.eqb_sym; destruct (Ascii.eqb ":" c3); auto; discriminate.
Qed.
Definition total (f : maker) : Prop := forall l, (4 <= List.length l)%nat -> exists t q, f l = Some (t, q).
Definition oper (x : tctx) (f : maker) : Prop := forall b r mt r', b / 64 <> 3 -> mem_t x (b / 64) (b mod 8) r = Some (mt, r') -> (4 <= List.length r')%nat ->
  exists A B q, f (b :: r) = Some (A ++ mt ++ B, q) /\ nc A = true.
Definition oper0 (x : tctx) (f : maker) : Prop := forall b r mt r', b / 64 <> 3 -> mem_t x (b / 64) (b mod 8) r = Some (mt, r') ->
  exists A B, f (b :: r) = Some (A ++ mt ++ B, r') /\ nc A = true.
Lemma oper_0 x f : oper0 x f -> oper x f. Proof. intros H b r mt r' H1 H2 _. destruct (H b r mt r' H1 H2) as (A & B & E & N). exists A, B, r'. auto. Qed.
Lemma rm_mem x w b r : b / 64 <> 3 -> rm_t x w b r = mem_t x (b / 64) (b mod 8) r. Proof. intros H. unfold rm_t. replace (b / 64 =? 3) with false by lia. reflexivity. Qed.
Lemma oper_modrm2 x wr wm pos : oper0 x (modrm_t2 x wr wm pos).
Proof.
  intros b r mt r' H1 H2. unfold modrm_t2, then_, say. cbv zeta. destruct pos; rewrite rm_mem by exact H1; rewrite H2.
  - exists "", "". rewrite app_empty. auto.
  - eexists _, "". rewrite app_empty. split; [reflexivity|]. destruct wr; [apply nc_regw|apply nc_regb].
  - exists "". eexists. split; [reflexivity|reflexivity].
Qed.
Lemma oper_mov_seg x f : oper0 x (mov_seg_t x f).
Proof.
  intros b r mt r' H1 H2. unfold mov_seg_t, then_, say. cbv zeta. destruct f; rewrite rm_mem by exact H1; rewrite H2.
  - exists "". eexists. split; reflexivity.
  - eexists _, "". rewrite app_empty. split; [reflexivity|]. apply nc_seg.
Qed.
Lemma oper_then x f g : oper0 x f -> total g -> oper x (f >> g).
Proof.
  intros H T b r mt r' H1 H2 Hl. destruct (H b r mt r' H1 H2) as (A & B & E & N). destruct (T r' Hl) as (t & q & Eq). unfold then_. rewrite E, Eq. exists A, (B ++ t), q. rewrite !app_assoc_s. auto.
Qed.
Lemma total_say t : total (say t). Proof. intros l _. eexists _, _. reflexivity. Qed.
Lemma total_r8 f : total (r8 f). Proof. intros [|a l] H; [cbn [List.length] in H; lia|]. eexists _, _. reflexivity. Qed.
Lemma total_r16 f : total (r16 f). Proof. intros [|a [|b l]] H; try (cbn [List.length] in H; lia). eexists _, _. reflexivity. Qed.
Lemma total_r32 f : total (r32 f). Proof. intros [|a [|b [|c [|d l]]]] H; try (cbn [List.length] in H; lia). eexists _, _. reflexivity. Qed.
Lemma total_immx x : total (immx x). Proof. unfold immx. destruct (x_os x); [apply total_r32|apply total_r16]. Qed.
Lemma oper_misc x w : oper x (misc_t x w).
Proof.
  intros b r mt r' H1 H2 Hl. unfold misc_t. apply (fun T => oper_then x (modrm_t x w NoReg) _ (oper_modrm2 x w w NoReg) T b r mt r' H1 H2 Hl).
  destruct (_ =? 0); [destruct w; [apply total_immx|apply total_r8]|apply total_say].
Qed.
(** The opcodes with a ModR/M byte that print an operand (82 and 0F BA are not implemented). *)
Definition shown_ops : list Z :=
  [0; 1; 2; 3; 8; 9; 10; 11; 16; 17; 18; 19; 24; 25; 26; 27; 32; 33; 34; 35; 40; 41; 42; 43; 48; 49; 50; 51; 56; 57; 58; 59; 105; 107; 128; 129; 131; 132; 133; 134; 135; 136; 137; 138; 139;
   140; 141; 142; 143; 192; 193; 196; 197; 198; 199; 208; 209; 210; 211; 246; 247; 254; 255].
Definition shown_ops0F : list Z := [182; 164; 165; 172; 173; 178; 180; 181; 175; 183; 188].
Lemma modrm_ops op t w t' : 0 <= op < 256 -> op <> 15 -> op <> 130 -> has_modrm (op :: t) = Some (w, t') -> t' = t /\ In op shown_ops.
Proof.
  intros Hb H15 H82 H.
  assert (K : has_modrm (op :: t) = match has_modrm [op] with Some (w, _) => Some (w, t) | None => None end).
  { clear H. unfold has_modrm. destruct op as [|q|q]; [reflexivity| |lia].
    repeat (destruct q as [q|q|]; try reflexivity; try (exfalso; apply H15; reflexivity)). }
  rewrite K in H.
  assert (A : forallb (fun i => match has_modrm [Z.of_nat i] with Some _ => (Z.of_nat i =? 130) || existsb (Z.eqb (Z.of_nat i)) shown_ops | _ => true end) (seq 0 256) = true) by (vm_compute; reflexivity).
  rewrite forallb_forall in A. specialize (A (Z.to_nat op)). rewrite Z2Nat.id in A by lia. specialize (A ltac:(apply in_seq; lia)).
  destruct (has_modrm [op]) as [[w' x]|]; [|discriminate]. injection H as -> <-. split; [reflexivity|]. replace (op =? 130) with false in A by lia. cbn [orb] in A.
  apply existsb_exists in A. destruct A as (y & Hy & Ey). apply Z.eqb_eq in Ey. subst y. exact Hy.
Qed.
Lemma modrm_ops0F op t w t' : op <> 186 -> has_modrm (15 :: op :: t) = Some (w, t') -> t' = t /\ In op shown_ops0F.
Proof.
  intros H86. cbn [has_modrm]. match goal with |- (if ?b then _ else _) = _ -> _ => destruct b eqn:K1 end; [intros Hx; injection Hx as _ <-; split; [reflexivity|cbn [In shown_ops0F]; lia]|].
  match goal with |- (if ?b then _ else _) = _ -> _ => destruct b eqn:K2 end; [|discriminate]. intros Hx; injection Hx as _ <-; split; [reflexivity|cbn [In shown_ops0F]; lia].
Qed.
Ltac op_shape := lazymatch goal with
  | |- oper _ (modrm_t _ _ _) => apply oper_0, oper_modrm2 | |- oper _ (modrm_t2 _ _ _ _) => apply oper_0, oper_modrm2 | |- oper _ (mov_seg_t _ _) => apply oper_0, oper_mov_seg | |- oper _ (misc_t _ _) => apply oper_misc
  | |- oper _ (_ >> _) => apply oper_then; [apply oper_modrm2|lazymatch goal with |- total (say _) => apply total_say | |- total (r8 _) => apply total_r8 | |- total imm8 => apply total_r8 | |- total (r16 _) => apply total_r16 | |- total (immx _) => apply total_immx end]
  end.
Lemma oper_handler x op : In op shown_ops -> oper x (handler x op).
Proof.
  intros H. cbn [In shown_ops] in H. repeat (destruct H as [<-|H]; [lazy [handler Z.eqb Z.ltb Z.leb Z.compare Pos.compare Pos.compare_cont Pos.eqb Z.modulo Z.div_eucl Z.pos_div_eucl Z.opp Z.add Z.sub Z.mul Pos.mul Pos.add Pos.succ Z.pos_sub Z.double Z.succ_double Z.pred_double Pos.pred_double orb andb fst snd]; op_shape|]). contradiction.
Qed.
Lemma oper_handler0F x op : In op shown_ops0F -> oper x (handler0F x op).
Proof. intros H. cbn [In shown_ops0F] in H. repeat (destruct H as [<-|H]; [lazy [handler0F Z.eqb Z.ltb Z.leb Z.compare Pos.compare Pos.compare_cont Pos.eqb orb andb]; op_shape|]). contradiction. Qed.
