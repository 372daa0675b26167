(** Property theorems C52-C57: the test kernel (testkern/) and its support library. *)
From Verif Require Import Base Cpu Machine Spec SpecRun TkLib SpecTk PBase PTk PExec PIso Demo Properties2 TkMain.

(** ** C52: 64-bit division and remainder (__udivdi3, __umoddi3).
    Right unless the subtraction loop is taken: divisor not one of the 13 special powers of two
    and an operand of 2^32 or more. *)
Definition special_divisor (den : Z) : Prop :=
  In den [1; 2; 4; 8; 16; 32; 1024; 2048; 4096; 8192; 16384; 32768; 65536].
Lemma special_hack den : hack_of hacks den = None <-> ~ special_divisor den.
Proof.
  unfold special_divisor. split.
  - intros H K. cbn [In] in K. repeat (destruct K as [<-|K]; [discriminate H|]). exact K.
  - intros H. unfold hacks. cbn [hack_of].
    repeat match goal with |- (if ?d =? ?c then _ else _) = _ => destruct (Z.eqb_spec d c); [exfalso; apply H; subst; cbn; tauto|] end. reflexivity.
Qed.
Theorem C52_division_fast_partial n num den : u64 num -> u64 den -> den <> 0 ->
  special_divisor den \/ (num < 2 ^ 32 /\ den < 2 ^ 32) ->
  udivdi3 n num den = Some (num / den) /\ umoddi3 n num den = Some (num mod den).
Proof.
  intros Hn Hd H0 H. apply div_fast; auto. intros [Hh Hs]. apply special_hack in Hh. destruct H as [H|H]; [contradiction|lia].
Qed.
(** Otherwise: right (given enough steps) exactly when the division leaves a remainder. *)
Theorem C52_division_slow_partial n num den : u64 num -> u64 den -> den <> 0 ->
  ~ special_divisor den -> 2 ^ 32 <= num \/ 2 ^ 32 <= den -> num <= Z.of_nat n ->
  (udivdi3 n num den = Some (num / den) <-> (num mod den <> 0 \/ num = 0)) /\
  (umoddi3 n num den = Some (num mod den) <-> (num mod den <> 0 \/ num = 0)).
Proof.
  intros Hn Hd H0 Hs Hb Hf. destruct (div_slow n num den Hn Hd H0) as [-> ->]; [split; [apply special_hack; exact Hs|exact Hb]|exact Hf|].
  unfold u64 in *. destruct (sub_right num den ltac:(lia) ltac:(lia)) as [A B]. 
  split; [rewrite <- A|rewrite <- B]; split; intros H; [injection H as H; exact H|rewrite H; reflexivity|injection H as H; exact H|rewrite H; reflexivity].
Qed.
Theorem C52_division_by_zero n num : udivdi3 n num 0 = None /\ umoddi3 n num 0 = None.
Proof. split; reflexivity. Qed.
Theorem C52_division_refuted : u64 (3 * 2 ^ 32) /\ udivdi3 3 (3 * 2 ^ 32) (2 ^ 32) = Some 2 /\ umoddi3 3 (3 * 2 ^ 32) (2 ^ 32) = Some (2 ^ 32).
Proof. split; [unfold u64; lia|]. split; vm_compute; reflexivity. Qed.
Example C52_case : udivdi3 0 (2 ^ 63 + 5) 1024 = Some (2 ^ 53) /\ umoddi3 0 4000000000 10 = Some 0 /\
  udivdi3 5 (2 ^ 33 + 1) (2 ^ 32) = Some 2 /\ ~ special_divisor (2 ^ 32) /\ (2 ^ 33 + 1) mod 2 ^ 32 <> 0.
Proof. repeat split; try (vm_compute; reflexivity); [apply special_hack; reflexivity|vm_compute; discriminate]. Qed.
Print Assumptions C52_division_fast_partial. Print Assumptions C52_division_slow_partial. Print Assumptions C52_division_by_zero. Print Assumptions C52_division_refuted.

(** ** C53: the heap.  For every history of malloc calls whose blocks (rounded up to 8 bytes) fit
    below 4 GiB: blocks are 8-aligned, lie in the heap, and no two overlap. *)
Definition rounded (n : Z) : Z := (n + 7) / 8 * 8.
Definition total (sizes : list Z) : Z := fold_right (fun n s => rounded n + s) 0 sizes.
Lemma total_eq sizes : total sizes = heap_total sizes.
Proof. induction sizes as [|n t IH]; [reflexivity|]. cbn [total heap_total fold_right]. fold (total t) (heap_total t). rewrite IH. unfold rounded, round8. lia. Qed.
Theorem C53_malloc_partial heap sizes : 0 <= heap -> heap mod 8 = 0 -> (forall n, In n sizes -> 0 <= n) -> heap + total sizes < 2 ^ 32 - 8 ->
  let blocks := combine (k_mallocs heap sizes) sizes in
  length blocks = length sizes /\ (forall p n, In (p, n) blocks -> p mod 8 = 0 /\ heap <= p /\ p + n <= heap + total sizes) /\
  ForallOrdPairs disjoint_blocks blocks.
Proof.
  intros Hh Ha Hn Ht. cbv zeta. rewrite total_eq in *. destruct (mallocs_ok sizes heap Hh Ha Hn Ht) as (L & A & B & C).
  split; [rewrite combine_length, L; lia|]. split; [|exact C]. intros p n Hp. pose proof (B p n Hp). apply in_combine_l in Hp. apply A in Hp. lia.
Qed.
Theorem C53_calloc_partial m heap nmemb size : 0 <= heap -> 0 <= nmemb -> 0 <= size -> heap + rounded (nmemb * size) < 2 ^ 32 - 8 ->
  let '(p, heap', m') := k_calloc m heap nmemb size in
  p = heap /\ p + nmemb * size <= heap' /\ filled m m' p (nmemb * size) (fun _ => 0).
Proof.
  intros Hh Hn Hs Hf. assert (E : rounded (nmemb * size) = round8 (nmemb * size)) by (unfold rounded, round8; lia). rewrite E in Hf.
  pose proof (calloc_ok m heap nmemb size Hh Hn Hs Hf) as H. destruct (k_calloc m heap nmemb size) as [[p heap'] m']. destruct H as (A & B & C).
  assert (0 <= nmemb * size) by nia. pose proof (round8_ge (nmemb * size) ltac:(lia)). split; [exact A|]. split; [lia|exact C].
Qed.
(** No failure is ever reported: requests that overflow size_t or exhaust the address space return
    blocks that overlap later ones. *)
Theorem C53_overflow_refuted :
  (let '(p, heap', m') := k_calloc (fun _ => 7) 0x110000 0x10000 0x10000 in p = 0x110000 /\ heap' = 0x110000 /\ m' 0x110000 = 7) /\
  k_mallocs 0x110000 [0xFFFFFFFF; 16] = [0x110000; 0x110000] /\
  k_mallocs 0xFFFFFFF0 [32; 16] = [0xFFFFFFF0; 0x10].
Proof. split; [vm_compute; auto|]. split; reflexivity. Qed.
Example C53_case : 0x110000 mod 8 = 0 /\ 0x110000 + total [5; 0; 4096; 64] < 2 ^ 32 - 8 /\
  k_mallocs 0x110000 [5; 0; 4096; 64] = [0x110000; 0x110008; 0x110008; 0x111008] /\
  (let '(p, heap', m') := k_calloc (fun _ => 7) 0x110000 3 5 in m' 0x11000E = 0 /\ m' 0x11000F = 7 /\ heap' = 0x110010).
Proof. repeat split; vm_compute; reflexivity. Qed.
Print Assumptions C53_malloc_partial. Print Assumptions C53_calloc_partial. Print Assumptions C53_overflow_refuted.

(** ** C54: memcpy and memset write the given bytes to the given range and nothing else. *)
Theorem C54_memcpy m dest src num : (forall x, 0 <= m x < 256) -> u32 dest -> u32 src -> 0 <= num ->
  dest + num <= 2 ^ 32 -> src + num <= 2 ^ 32 -> dest <= src \/ src + num <= dest ->
  filled m (k_memcpy m dest src num) dest num (fun i => m (src + i)).
Proof. exact (memcpy_ok m dest src num). Qed.
Theorem C54_memset_partial m dest val num : u32 dest -> 0 <= num -> dest + num <= 2 ^ 32 ->
  num < 4 \/ val = 0 \/ val mod 2 ^ 32 = (val mod 256) * 0x01010101 ->
  filled m (k_memset m dest val num) dest num (fun _ => val mod 256).
Proof. intros Hd Hn He Hv. apply memset_right; auto. destruct Hv as [H|[->|H]]; [left; exact H|right; reflexivity|right; exact H]. Qed.
(** memset(p, c, n) with n >= 4 fills with the 32-bit pattern c: memset(p, 1, 4) gives 1 0 0 0. *)
Theorem C54_memset_refuted : let m' := k_memset (fun _ => 0xAA) 0x2000 1 5 in
  m' 0x2000 = 1 /\ m' 0x2001 = 0 /\ m' 0x2004 = 1 /\ ~ filled (fun _ => 0xAA) m' 0x2000 5 (fun _ => 1).
Proof. cbv zeta. split; [vm_compute; reflexivity|]. split; [vm_compute; reflexivity|]. split; [vm_compute; reflexivity|]. intros [H _]. specialize (H 1 ltac:(lia)). vm_compute in H. discriminate. Qed.
Definition ramp (x : Z) : Z := x mod 251.
Example C54_case : (forall x, 0 <= ramp x < 256) /\ k_memcpy ramp 1000 1003 7 1006 = ramp 1009 /\ k_memcpy ramp 1000 1003 7 1007 = ramp 1007 /\
  k_memset ramp 1000 (-1) 6 1005 = 255 /\ (-1) mod 2 ^ 32 = ((-1) mod 256) * 0x01010101.
Proof. split; [intros x; unfold ramp; pose proof (Z.mod_pos_bound x 251); lia|]. repeat split; vm_compute; reflexivity. Qed.
Print Assumptions C54_memcpy. Print Assumptions C54_memset_partial. Print Assumptions C54_memset_refuted.

(** ** C55: itoa gives the positional notation of the value, padded on the left. *)
Theorem C55_itoa_partial f val base len pad : u64 val -> base = 8 \/ base = 16 \/ (base = 10 /\ val < 2 ^ 32) -> len <= 64 ->
  exists t, k_itoa f val base len pad = Some t /\ number_text base val len pad t.
Proof. intros Hv Hb Hl. apply itoa_ok; [split; assumption|exact Hl]. Qed.
(** Positional notation determines the text, so nothing else is printed. *)
Theorem C55_text_unique base val len pad s t : 1 < base -> number_text base val len pad s -> number_text base val len pad t -> s = t.
Proof. exact (number_text_unique base val len pad s t). Qed.
(** Widths above 64 overflow the buffers; with the subtraction loop the last digit can be wrong:
    42949672960 is printed as 4294967295A. *)
Theorem C55_itoa_refuted f : 10 * 2 ^ 32 <= Z.of_nat f ->
  k_itoa f (10 * 2 ^ 32) 10 0 32 = Some [52; 50; 57; 52; 57; 54; 55; 50; 57; 53; 65].
Proof.
  intros Hf. destruct (div_slow f (10 * 2 ^ 32) 10) as [Q R]; [unfold u64; lia|unfold u64; lia|lia|split; [reflexivity|lia]|exact Hf|].
  unfold k_itoa. assert (D : itoa_digits f 70 (10 * 2 ^ 32) 10 0 = Some [65; 53; 57; 50; 55; 54; 57; 52; 57; 50; 52]).
  { remember 69%nat as n. replace 70%nat with (S n) by (subst; reflexivity). cbn [itoa_digits]. rewrite Q, R.
    change (sub_rem (10 * 2 ^ 32) 10) with 10. change (sub_quot (10 * 2 ^ 32) 10) with 4294967295. subst n. reflexivity. }
  rewrite D. reflexivity.
Qed.
Theorem C55_width_refuted f : k_itoa f 5 10 65 32 = None.
Proof. reflexivity. Qed.
Example C55_case : k_itoa 0 0x1F2 16 6 48 = Some [48; 48; 48; 49; 70; 50] /\ k_itoa 0 4294967295 10 0 32 = Some [52; 50; 57; 52; 57; 54; 55; 50; 57; 53] /\
  k_itoa 0 0 8 2 32 = Some [32; 48] /\ number_text 10 42 4 32 [32; 32; 52; 50].
Proof.
  split; [vm_compute; reflexivity|]. split; [vm_compute; reflexivity|]. split; [vm_compute; reflexivity|]. exists [4; 2]. split; [|reflexivity].
  split; [reflexivity|]. split; [intros d [<-|[<-|[]]]; lia|]. split; [discriminate|]. cbn [hd]. lia.
Qed.
Print Assumptions C55_itoa_partial. Print Assumptions C55_text_unique. Print Assumptions C55_itoa_refuted. Print Assumptions C55_width_refuted.

(** ** C56: printf.  A format made of ordinary characters and the directives %o %i %x (with an
    optional 0 flag and width up to 64), %p and %s prints what it should. *)
Theorem C56_printf_partial f str items fmt args out : writes items fmt -> prints str items args out -> fits items args ->
  k_printf f (S (length fmt)) str fmt args = Some out.
Proof. intros. eapply printf_ok; eauto. Qed.
(** "%%" consumes an argument and prints nothing; a trailing % runs past the end of the format. *)
Theorem C56_percent_refuted f str : k_printf f 10 str [37; 37; 37; 105] [7; 8] = Some [56] /\ k_printf f 10 str [37] [7] = None /\ k_printf f 10 str [37; 100] [7] = Some [].
Proof. split; [|split]; reflexivity. Qed.
(** "%04x %s\n" with 0x1F and the string "ok" at 0x2000. *)
Definition strs (p : Z) : list Z := if p =? 0x2000 then [111; 107] else [].
Definition fmt1 : list Z := [37; 48; 52; 120; 32; 37; 115; 10].
Definition items1 : list item := [Num 16 true 4; Lit 32; Str; Lit 10].
Example C56_case : writes items1 fmt1 /\ prints strs items1 [0x1F; 0x2000] [48; 48; 49; 70; 32; 111; 107; 10] /\ fits items1 [0x1F; 0x2000] /\
  k_printf 0 9 strs fmt1 [0x1F; 0x2000] = Some [48; 48; 49; 70; 32; 111; 107; 10].
Proof.
  split; [|split; [|split]].
  - apply (W_num 16 true 4 [52] 120); [lia| |apply W_lit; [lia|]; apply W_str; apply W_lit; [lia|constructor]].
    right. split; [lia|]. exists [4]. split; [|reflexivity]. split; [reflexivity|]. split; [intros d [<-|[]]; lia|]. split; [discriminate|cbn [hd]; lia].
  - apply (P_num strs 16 true 4 0x1F [48; 48; 49; 70]); [|apply P_lit; apply (P_str strs 0x2000); [lia|]; apply P_lit; constructor].
    exists [1; 15]. split; [|reflexivity]. split; [reflexivity|]. split; [intros d [<-|[<-|[]]]; lia|]. split; [discriminate|cbn [hd]; lia].
  - split; [intros v [<-|[<-|[]]]; unfold u32; lia|]. intros b z w [H|[H|[H|[H|[]]]]]; try discriminate. injection H as <- <- <-. lia.
  - vm_compute. reflexivity.
Qed.
Print Assumptions C56_printf_partial. Print Assumptions C56_percent_refuted.

(** ** C57: what the test kernel's machine can reach.  [main] (main.c:19-42) maps blocks 1-255 to
    host memory itself, block 0 to a copy, and leaves 256-271 NULL, then calls INT 10h: [TkMain.tk_machine]. *)
(** Conventional memory above page 0 (and three bytes), or the copy of page 0 (and three bytes). *)
Definition tk_reach (lowCache x : Z) : Prop := 0x1000 <= x < 0x100003 \/ lowCache <= x < lowCache + 4099.
Lemma tk_acc E low x : null_check E = true -> zero_null_ok E = false -> accessible E (tk_map low) x -> tk_reach low x.
Proof.
  intros HE HZ (b & Hb & Hn & Hx). specialize (Hn HE). unfold tk_map, tk_reach in *.
  destruct (Z.eqb_spec b 0); [right; lia|]. destruct (Z.ltb_spec b 256); [left; lia|]. destruct Hn as [Hn|[Hn _]]; [contradiction|congruence].
Qed.
(** In a build with the NULL check, whatever the BIOS code does, INT 10h leaves the rest of host
    memory (the real page 0, the kernel) unchanged, and does not depend on it. *)
Theorem C57_reach_checked_partial E debug low h fuel num : null_check E = true -> zero_null_ok E = false -> cb_inside E ->
  forall s', call_int E fuel num (tk_machine debug low h) = Ok tt s' \/ (exists c, call_int E fuel num (tk_machine debug low h) = Err c s') ->
  forall x, ~ tk_reach low x -> hmem (ar s') x = h x.
Proof.
  intros HE HZ HC s' R x Hx.
  pose proof (call_int_isolated E (tk_map low) fuel num _ _ HC (inside_refl E (tk_machine debug low h))) as H.
  assert (A : ~ accessible E (tk_map low) x) by (intros A; apply Hx; eapply tk_acc; eauto).
  destruct R as [R|[c R]]; rewrite R in H; destruct H as (_ & _ & H); apply (H x A).
Qed.
Theorem C57_independent_checked_partial E debug low h h2 fuel num : null_check E = true -> zero_null_ok E = false -> cb_inside E ->
  (forall x, tk_reach low x -> h x = h2 x) ->
  alike E (tk_map low) h h2 (call_int E fuel num (tk_machine debug low h)) (call_int E fuel num (tk_machine debug low h2)).
Proof.
  intros HE HZ HC Hh. apply (call_int_isolated E (tk_map low) fuel num (tk_machine debug low h) (tk_machine debug low h2) HC).
  split; [reflexivity|]. split; [reflexivity|]. intros x A. apply (Hh x). eapply tk_acc; eauto.
Qed.
(** Guest addresses 1000-FFFFF are host addresses; page 0 is the copy. *)
Theorem C57_identity E debug low h seg ofs : inrange 16 seg -> inrange 16 ofs -> 0 < low -> 16 * seg + ofs < 0x100000 ->
  let s := tk_machine debug low h in
  let x := 16 * seg + ofs in
  let host := if x <? 4096 then low + x else x in
  forall b, h host = Some b -> 0 <= b < 256 -> rd E 8 seg ofs s = Ok b s /\
  forall v, exists s', wr E 8 seg ofs v s = Ok tt s' /\ hmem (ar s') host = Some (v mod 256) /\ forall y, y <> host -> hmem (ar s') y = h y.
Proof.
  intros Hs Ho Hl Hx. cbv zeta. set (x := 16 * seg + ofs) in *. set (host := if x <? 4096 then low + x else x). intros b Hb Hr.
  unfold inrange in *.
  assert (G : forall s, mtab (ar s) = tk_map low -> getptr E seg (wrap 16 ofs) s = Ok host s).
  { intros s Hm. unfold getptr. rewrite (wrap_small 16) by (unfold inrange; lia). rewrite wrap_small by (unfold inrange; lia).
    replace (seg * 16 + ofs) with x by (unfold x; lia). replace (x / 4096 <? 272) with true by lia. rewrite Hm. unfold tk_map.
    assert (E0 : (if x / 4096 =? 0 then low else if x / 4096 <? 256 then x / 4096 * 4096 else 0) + x mod 4096 = host /\
                 ((if x / 4096 =? 0 then low else if x / 4096 <? 256 then x / 4096 * 4096 else 0) =? 0) = false).
    { unfold host. destruct (Z.ltb_spec x 4096).
      - replace (x / 4096 =? 0) with true by lia. lia.
      - replace (x / 4096 =? 0) with false by lia. replace (x / 4096 <? 256) with true by lia. lia. }
    destruct E0 as [E0 E1]. rewrite E1, E0, andb_false_r. reflexivity. }
  split.
  - unfold rd, bind. rewrite G by reflexivity. unfold hload. cbn [tk_machine set_ar create_state ar hmem].
    change (nbytes 8) with 1%nat. cbn [load_bytes]. rewrite Hb. f_equal. lia.
  - intros v. unfold wr, bind. rewrite G by reflexivity. unfold hstore. cbn [tk_machine set_ar create_state ar hmem].
    change (nbytes 8) with 1%nat. cbn [valid_bytes store_bytes]. rewrite Hb. eexists. split; [reflexivity|].
    cbn [set_ar a_hmem ar hmem]. split.
    + unfold store_bytes. change (Z.of_nat 1) with 1. replace ((host <=? host) && (host <? host + 1)) with true by lia.
      replace (8 * (host - host)) with 0 by lia. rewrite Z.pow_0_r, Z.div_1_r. reflexivity.
    + intros y Hy. unfold store_bytes. change (Z.of_nat 1) with 1. replace ((host <=? y) && (y <? host + 1)) with false by lia. reflexivity.
Qed.
(** The shipped build has no NULL check: FFFF:0010 is the real page 0, which the copy was meant to
    protect.  MOV [0010],AL with DS=FFFF overwrites host address 0. *)
Definition tk_guest : st :=
  mkSt (mkArch 0x5A 0 0xFFFF 0 0 0 0x7C0 0 2 2 (tk_map 0x200000) (fun _ => 0)
          (fun x => Some (assoc (blist 0x7C00 [0xA2; 0x10; 0x00]) x)) []) dec0 0 0 false.
Theorem C57_reach_refuted : exists s', run_one demo_env tk_guest = Ok tt s' /\ ~ tk_reach 0x200000 0 /\
  hmem (ar tk_guest) 0 = Some 0 /\ hmem (ar s') 0 = Some 0x5A.
Proof.
  destruct (okb_ex (run_one demo_env tk_guest) (fun s' => match hmem (ar s') 0 with Some b => b =? 0x5A | None => false end))
    as (s' & H1 & H2); [vm_compute; reflexivity|]. exists s'. split; [exact H1|]. split; [unfold tk_reach; lia|]. split; [vm_compute; reflexivity|].
  destruct (hmem (ar s') 0) as [b|]; [|discriminate]. apply Z.eqb_eq in H2. subst b. reflexivity.
Qed.
(** A machine whose INT 10h handler at C000:0000 is MOV [1234],AL; IRET with the checked build. *)
Definition tk_host (x : Z) : option Z := Some (assoc (blist 0x200040 [0; 0; 0; 0xC0] ++ blist 0xC0000 [0xA2; 0x34; 0x12; 0xCF]) x).
Example C57_case : null_check checked_env = true /\ zero_null_ok checked_env = false /\ cb_inside checked_env /\
  exists s', call_int checked_env 10 0x10 (tk_machine 0 0x200000 tk_host) = Ok tt s' /\ hmem (ar s') 0x1234 = Some 0x11.
Proof.
  split; [reflexivity|]. split; [reflexivity|]. split; [intros hh n mt s1 s2 S; cbn [checked_env callback]; auto|].
  destruct (okb_ex (call_int checked_env 10 0x10 (tk_machine 0 0x200000 tk_host)) (fun s' => match hmem (ar s') 0x1234 with Some b => b =? 0x11 | None => false end))
    as (s' & H1 & H2); [vm_compute; reflexivity|]. exists s'. split; [exact H1|].
  destruct (hmem (ar s') 0x1234) as [b|]; [|discriminate]. apply Z.eqb_eq in H2. subst b. reflexivity.
Qed.
Print Assumptions C57_reach_checked_partial. Print Assumptions C57_independent_checked_partial. Print Assumptions C57_identity. Print Assumptions C57_reach_refuted.
