(** The test kernel's console and main. *)
From Coq Require Import String Ascii.
From Verif Require Import Base Cpu Machine Spec TkLib SpecTk TkMain SpecTkMain PBase PTk.
Local Open Scope Z_scope.

(** ** The console. *)
Lemma sent_app p a b : sent p (a ++ b) = sent p b ++ sent p a.
Proof. unfold sent. rewrite flat_map_app, rev_app_distr. reflexivity. Qed.
Lemma handshake_app a b : handshake a -> handshake b -> handshake (a ++ b).
Proof. intros Ha Hb. induction Ha as [|e h N H IH|v s h T H IH]; cbn [app]; [exact Hb|constructor; assumption|constructor; assumption]. Qed.
Lemma shows_nil : shows [] []. Proof. split; [reflexivity|]. split; [reflexivity|]. split; constructor. Qed.
Lemma shows_app t u a b : shows t b -> shows u a -> shows (t ++ u) (a ++ b).
Proof.
  intros (B1 & B2 & B3 & B4) (A1 & A2 & A3 & A4). unfold shows. rewrite !sent_app, A1, A2, B1, B2. split; [reflexivity|]. split; [reflexivity|]. split; [apply handshake_app; assumption|apply Forall_app; split; assumption].
Qed.
Lemma land32 v : (Z.land v 0x20 =? 0) = negb (Z.testbit v 5).
Proof.
  change 0x20 with (2 ^ 5). destruct (Z.testbit v 5) eqn:E; cbn [negb].
  - apply Z.eqb_neq. intros H. assert (K : Z.testbit (Z.land v (2 ^ 5)) 5 = true) by (rewrite Z.land_spec, E; reflexivity). rewrite H, Z.bits_0 in K. discriminate.
  - apply Z.eqb_eq. apply Z.bits_inj'. intros n Hn. rewrite Z.land_spec, Z.bits_0. destruct (Z.eq_dec n 5) as [->|N]; [rewrite E; reflexivity|]. rewrite Z.pow2_bits_false by lia. apply andb_false_r.
Qed.
Definition polls (l : list pev) : Prop := Forall (fun e => exists v, e = PIn 0x3FD v) l.
Lemma wait_spec n uart : forall h h', k_wait n uart h = Some h' -> exists st l, h' = PIn 0x3FD st :: l ++ h /\ Z.testbit st 5 = true /\ polls l.
Proof.
  induction n as [|n IH]; intros h h'; cbn [k_wait]; change (0x3F8 + 5) with 0x3FD; rewrite land32; destruct (Z.testbit (wrap 8 (uart h)) 5) eqn:T; cbn [negb]; try discriminate.
  - intros [= <-]. exists (wrap 8 (uart h)), []. split; [reflexivity|]. split; [exact T|constructor].
  - intros [= <-]. exists (wrap 8 (uart h)), []. split; [reflexivity|]. split; [exact T|constructor].
  - intros H. destruct (IH _ _ H) as (st & l & -> & Ht & Hl). exists st, (l ++ [PIn 0x3FD (wrap 8 (uart h))]). split; [rewrite <- app_assoc; reflexivity|]. split; [exact Ht|].
    apply Forall_app. split; [exact Hl|]. constructor; [eexists; reflexivity|constructor].
Qed.
Lemma polls_sent p l : polls l -> sent p l = [] /\ handshake l /\ console_only l.
Proof.
  intros H. unfold sent. induction H as [|e l [v ->] H IH]; [split; [reflexivity|split; constructor]|]. destruct IH as (I1 & I2 & I3). cbn [flat_map app]. split; [exact I1|]. split; [apply H_other; [discriminate|exact I2]|]. constructor; [reflexivity|exact I3].
Qed.
Lemma putchar_spec n uart c h h' : 0 <= c < 256 -> k_putchar n uart c h = Some h' -> exists new, h' = new ++ h /\ shows [c] new.
Proof.
  intros Hc. unfold k_putchar. rewrite wrap_small by (unfold inrange; lia). destruct (k_wait n uart _) as [h1|] eqn:W; [|discriminate]. intros [= <-]. destruct (wait_spec _ _ _ _ W) as (st & l & -> & T & L).
  exists (POut 0x3F8 c :: PIn 0x3FD st :: l ++ [POut 0xE9 c]). split; [cbn [app]; rewrite <- app_assoc; reflexivity|].
  destruct (polls_sent 0xE9 l L) as (S1 & HL & CL). destruct (polls_sent 0x3F8 l L) as (S2 & _ & _). unfold shows.
  change (POut 0x3F8 c :: PIn 0x3FD st :: l ++ [POut 0xE9 c]) with ([POut 0x3F8 c; PIn 0x3FD st] ++ l ++ [POut 0xE9 c]). rewrite !sent_app, S1, S2.
  split; [reflexivity|]. split; [reflexivity|]. split.
  - cbn [app]. apply H_byte; [exact T|]. apply handshake_app; [exact HL|]. apply H_other; [discriminate|constructor].
  - apply Forall_app. split; [constructor; [auto|constructor; [reflexivity|constructor]]|]. apply Forall_app. split; [exact CL|]. constructor; [auto|constructor].
Qed.
Lemma putall_spec n uart t : forall h h', Forall (fun c => 0 <= c < 256) t -> k_putall n uart t h = Some h' -> exists new, h' = new ++ h /\ shows t new.
Proof.
  induction t as [|c t IH]; intros h h' B; cbn [k_putall]; [intros [= <-]; exists []; split; [reflexivity|exact shows_nil]|].
  inversion B as [|? ? Hc B']; subst. destruct (k_putchar n uart c h) as [h1|] eqn:P; [|discriminate]. intros H. destruct (putchar_spec _ _ _ _ _ Hc P) as (n1 & -> & S1). destruct (IH _ _ B' H) as (n2 & -> & S2).
  exists (n2 ++ n1). split; [rewrite app_assoc; reflexivity|]. exact (shows_app [c] t n2 n1 S1 S2).
Qed.
Lemma wait_ready uart : status_bytes uart -> forall n h k, (k <= n)%nat -> Z.testbit (uart (polled uart k h)) 5 = true -> exists h', k_wait n uart h = Some h'.
Proof.
  intros B. induction n as [|n IH]; intros h k Hk T; cbn [k_wait]; rewrite (wrap_small 8) by apply B; rewrite land32; destruct (Z.testbit (uart h) 5) eqn:R; cbn [negb]; try (eexists; reflexivity).
  - assert (k = 0%nat) as -> by lia. cbn [polled] in T. congruence.
  - destruct k as [|k]; [cbn [polled] in T; congruence|]. cbn [polled] in T. change (0x3F8 + 5) with 0x3FD. apply (IH _ k); [lia|exact T].
Qed.
Lemma putall_ready n uart t : status_bytes uart -> ready_within n uart -> forall h, exists h', k_putall n uart t h = Some h'.
Proof.
  intros B R. induction t as [|c t IH]; intros h; cbn [k_putall]; [eexists; reflexivity|]. unfold k_putchar. destruct (R (POut 233 (wrap 8 c) :: h)) as (k & Hk & T).
  destruct (wait_ready uart B n _ k Hk T) as (h1 & ->). apply IH.
Qed.
Lemma wait_dead uart : status_bytes uart -> (forall h, Z.testbit (uart h) 5 = false) -> forall n h, k_wait n uart h = None.
Proof.
  intros B D. induction n as [|n IH]; intros h; cbn [k_wait]; rewrite (wrap_small 8) by apply B; rewrite land32, D; cbn [negb]; [reflexivity|apply IH].
Qed.
(** ** Formats. *)
Lemma writes_lits t : forall l s, Forall (fun c => c <> 37) t -> writes l s -> writes (map Lit t ++ l) (t ++ s).
Proof. induction t as [|c t IH]; intros l s F W; [exact W|]. inversion F; subst. cbn [map app]. constructor; auto. Qed.
Lemma prints_lits str t : forall l args o, prints str l args o -> prints str (map Lit t ++ l) args (t ++ o).
Proof. induction t as [|c t IH]; intros l args o P; [exact P|]. cbn [map app]. constructor. apply IH, P. Qed.
Lemma writes_plain t : Forall (fun c => c <> 37) t -> writes (map Lit t) t.
Proof. intros F. pose proof (writes_lits t [] [] F W_nil) as H. rewrite !app_nil_r in H. exact H. Qed.
Lemma say_ok n f uart items fmt args o h : writes items fmt -> prints (fun _ => []) items args o -> fits items args -> k_say n f uart fmt args h = k_putall n uart o h.
Proof. intros W P F. unfold k_say. rewrite (printf_ok f _ items fmt args o _ W P F) by lia. reflexivity. Qed.
Lemma say_plain n f uart t h : Forall (fun c => c <> 37) t -> k_say n f uart t [] h = k_putall n uart t h.
Proof.
  intros F. apply (say_ok n f uart (map Lit t)); [apply writes_plain, F| |].
  - pose proof (prints_lits (fun _ => []) t [] [] [] (P_nil _ _)) as H. rewrite !app_nil_r in H. exact H.
  - split; [intros v []|]. intros b z w H. apply in_map_iff in H. destruct H as (c & H & _). discriminate.
Qed.
Lemma number_bytes base v len pad t : 1 < base <= 16 -> 0 <= pad < 256 -> number_text base v len pad t -> Forall (fun c => 0 <= c < 256) t.
Proof.
  intros Hb Hp (ds & (_ & Hd & _) & ->). apply Forall_app. split.
  - apply Forall_forall. intros c Hc. apply repeat_spec in Hc. subst c. exact Hp.
  - apply Forall_forall. intros c Hc. apply in_map_iff in Hc. destruct Hc as (d & <- & Hi). specialize (Hd d Hi). unfold digit_char. destruct (d <? 10); lia.
Qed.
Lemma number_ex base v len pad : base = 10 \/ base = 16 -> 0 <= v < 2 ^ 32 -> len <= 64 -> exists t, number_text base v len pad t.
Proof. intros Hb Hv Hl. destruct (itoa_ok 0 v base len pad) as (t & _ & H); [apply exact32; [lia|exact Hv]|exact Hl|]. exists t. exact H. Qed.
(** "%x %x\n" *)
Lemma say_words n f uart a b h : 0 <= a < 65536 -> 0 <= b < 65536 -> exists x y, number_text 16 a 0 32 x /\ number_text 16 b 0 32 y /\
  k_say n f uart (chars "%x %x" ++ nl) [a; b] h = k_putall n uart (x ++ chars " " ++ y ++ nl) h /\ Forall (fun c => 0 <= c < 256) (x ++ chars " " ++ y ++ nl).
Proof.
  intros Ha Hb. destruct (number_ex 16 a 0 32) as (x & Hx); [auto|lia|lia|]. destruct (number_ex 16 b 0 32) as (y & Hy); [auto|lia|lia|]. exists x, y. split; [exact Hx|]. split; [exact Hy|]. split.
  - apply (say_ok n f uart [Num 16 false 0; Lit 32; Num 16 false 0; Lit 10]).
    + change (chars "%x %x" ++ nl) with (37 :: (if false then [48] else []) ++ [] ++ 120 :: 32 :: 37 :: (if false then [48] else []) ++ [] ++ 120 :: 10 :: []).
      apply W_num; [auto|left; auto|]. apply W_lit; [lia|]. apply W_num; [auto|left; auto|]. apply W_lit; [lia|]. constructor.
    + change (chars " " ++ y ++ nl) with (32 :: y ++ [10]). apply (P_num _ 16 false 0 a x); [exact Hx|]. apply P_lit. apply (P_num _ 16 false 0 b y); [exact Hy|]. apply P_lit. constructor.
    + split; [intros v [<-|[<-|[]]]; unfold u32; lia|]. intros b0 z w [H|[H|[H|[H|[]]]]]; try discriminate; injection H; lia.
  - pose proof (number_bytes 16 a 0 32 x ltac:(lia) ltac:(lia) Hx). pose proof (number_bytes 16 b 0 32 y ltac:(lia) ltac:(lia) Hy).
    apply Forall_app. split; [assumption|]. apply Forall_app. split; [constructor; [cbn; lia|constructor]|]. apply Forall_app. split; [assumption|]. constructor; [lia|constructor].
Qed.
(** ** main. *)
Definition all_bytes (t : list Z) : bool := forallb (fun c => (0 <=? c) && (c <? 256)) t.
Definition no_percent (t : list Z) : bool := forallb (fun c => negb (c =? 37)) t.
Lemma all_bytes_ok t : all_bytes t = true -> Forall (fun c => 0 <= c < 256) t.
Proof. intros H. apply Forall_forall. intros c Hc. unfold all_bytes in H. rewrite forallb_forall in H. specialize (H c Hc). lia. Qed.
Lemma no_percent_ok t : no_percent t = true -> Forall (fun c => c <> 37) t.
Proof. intros H. apply Forall_forall. intros c Hc. unfold no_percent in H. rewrite forallb_forall in H. specialize (H c Hc). lia. Qed.
Section Console.
Context (n : nat) (uart : list pev -> Z) (HB : status_bytes uart) (HR : ready_within n uart).
Lemma put_shows t h : Forall (fun c => 0 <= c < 256) t -> exists new, k_putall n uart t h = Some (new ++ h) /\ shows t new.
Proof. intros B. destruct (putall_ready n uart t HB HR h) as (h' & H). destruct (putall_spec n uart t h h' B H) as (new & -> & S). exists new. split; [exact H|exact S]. Qed.
Lemma plain_shows f t h : all_bytes t = true -> no_percent t = true -> exists new, k_say n f uart t [] h = Some (new ++ h) /\ shows t new.
Proof. intros B P. rewrite say_plain by (apply no_percent_ok, P). apply put_shows, all_bytes_ok, B. Qed.
Lemma words_shows f a b h : 0 <= a < 65536 -> 0 <= b < 65536 -> exists x y new, number_text 16 a 0 32 x /\ number_text 16 b 0 32 y /\
  k_say n f uart (chars "%x %x" ++ nl) [a; b] h = Some (new ++ h) /\ shows (x ++ chars " " ++ y ++ nl) new.
Proof.
  intros Ha Hb. destruct (say_words n f uart a b h Ha Hb) as (x & y & Hx & Hy & E & B). destruct (put_shows _ h B) as (new & P & S). exists x, y, new. rewrite E. auto.
Qed.
Lemma ax_shows f v h : 0 <= v < 65536 -> exists x new, number_text 16 v 4 48 x /\ k_say n f uart (chars "emu->AX = 0x%04x" ++ nl) [v] h = Some (new ++ h) /\ shows (chars "emu->AX = 0x" ++ x ++ nl) new.
Proof.
  intros Hv. destruct (number_ex 16 v 4 48) as (x & Hx); [auto|lia|lia|]. pose proof (number_bytes 16 v 4 48 x ltac:(lia) ltac:(lia) Hx) as Bx.
  assert (W : writes (map Lit (chars "emu->AX = 0x") ++ [Num 16 true 4; Lit 10]) (chars "emu->AX = 0x%04x" ++ nl)).
  { change (chars "emu->AX = 0x%04x" ++ nl) with (chars "emu->AX = 0x" ++ 37 :: (if true then [48] else []) ++ [52] ++ 120 :: [10]). apply writes_lits; [apply no_percent_ok; reflexivity|].
    apply W_num; [auto| |apply W_lit; [lia|constructor]]. right. split; [lia|]. exists [4]. split; [|reflexivity]. split; [reflexivity|]. split; [intros d [<-|[]]; lia|]. split; [discriminate|cbn [hd]; lia]. }
  assert (P : prints (fun _ => []) (map Lit (chars "emu->AX = 0x") ++ [Num 16 true 4; Lit 10]) [v] (chars "emu->AX = 0x" ++ x ++ nl)).
  { apply prints_lits. apply (P_num _ 16 true 4 v x); [exact Hx|]. apply P_lit. constructor. }
  assert (F : fits (map Lit (chars "emu->AX = 0x") ++ [Num 16 true 4; Lit 10]) [v]).
  { split; [intros u [<-|[]]; unfold u32; lia|]. intros b z w H. apply in_app_iff in H. destruct H as [H|[H|[H|[]]]]; [apply in_map_iff in H; destruct H as (c & H & _); discriminate|injection H; lia|discriminate]. }
  rewrite (say_ok n f uart _ _ _ _ h W P F). destruct (put_shows (chars "emu->AX = 0x" ++ x ++ nl) h) as (new & E & S).
  { apply Forall_app. split; [apply all_bytes_ok; reflexivity|]. apply Forall_app. split; [exact Bx|apply all_bytes_ok; reflexivity]. }
  exists x, new. auto.
Qed.
Lemma unknown_shows f v h : 0 <= v < 65536 -> exists x new, number_text 10 v 0 32 x /\ k_say n f uart (nl ++ chars "--- ERROR: Unknown error %i" ++ nl) [v] h = Some (new ++ h) /\
  shows (nl ++ chars "--- ERROR: Unknown error " ++ x ++ nl) new.
Proof.
  intros Hv. destruct (number_ex 10 v 0 32) as (x & Hx); [auto|lia|lia|]. pose proof (number_bytes 10 v 0 32 x ltac:(lia) ltac:(lia) Hx) as Bx.
  set (l := nl ++ chars "--- ERROR: Unknown error ").
  assert (W : writes (map Lit l ++ [Num 10 false 0; Lit 10]) (nl ++ chars "--- ERROR: Unknown error %i" ++ nl)).
  { change (nl ++ chars "--- ERROR: Unknown error %i" ++ nl) with (l ++ 37 :: (if false then [48] else []) ++ [] ++ 105 :: [10]). apply writes_lits; [apply no_percent_ok; reflexivity|].
    apply W_num; [auto|left; auto|apply W_lit; [lia|constructor]]. }
  assert (P : prints (fun _ => []) (map Lit l ++ [Num 10 false 0; Lit 10]) [v] (l ++ x ++ nl)).
  { apply prints_lits. apply (P_num _ 10 false 0 v x); [exact Hx|]. apply P_lit. constructor. }
  assert (F : fits (map Lit l ++ [Num 10 false 0; Lit 10]) [v]).
  { split; [intros u [<-|[]]; unfold u32; lia|]. intros b z w H. apply in_app_iff in H. destruct H as [H|[H|[H|[]]]]; [apply in_map_iff in H; destruct H as (c & H & _); discriminate|injection H; lia|discriminate]. }
  rewrite (say_ok n f uart _ _ _ _ h W P F). destruct (put_shows (l ++ x ++ nl) h) as (new & E & S).
  { apply Forall_app. split; [apply all_bytes_ok; reflexivity|]. apply Forall_app. split; [exact Bx|apply all_bytes_ok; reflexivity]. }
  exists x, new. split; [exact Hx|]. split; [exact E|]. unfold l in S. rewrite <- app_assoc in S. exact S.
Qed.
Lemma report_shows f r h : (match r with Ok _ s => True | Err c _ => 0 <= c < 65536 | _ => False end) ->
  exists t new, verdict r t /\ k_report n f uart r h = Some (new ++ h) /\ shows t new.
Proof.
  destruct r as [u s|c s|x|]; intros Hr; try contradiction.
  - unfold k_report. destruct (plain_shows f (nl ++ chars "--- Emulator exited successfully!" ++ nl) h) as (n1 & E1 & S1); [reflexivity|reflexivity|]. rewrite E1.
    destruct (ax_shows f (getf 0 16 (gprs (ar s))) (n1 ++ h)) as (x & n2 & Hx & E2 & S2); [apply getf_range; lia|]. rewrite E2.
    exists ((nl ++ chars "--- Emulator exited successfully!" ++ nl) ++ chars "emu->AX = 0x" ++ x ++ nl), (n2 ++ n1). split; [|split; [rewrite <- app_assoc; reflexivity|apply shows_app; assumption]].
    exists x. split; [|rewrite <- !app_assoc; reflexivity]. rewrite reg_getf by (unfold width; auto || lia). exact Hx.
  - unfold k_report, verdict.
    destruct (c =? E_INVAL); [eexists; destruct (plain_shows f (nl ++ chars "--- ERROR: Invalid parameters" ++ nl) h) as (n1 & E1 & S1); [reflexivity|reflexivity|]; exists n1; split; [reflexivity|split; assumption]|].
    destruct (c =? E_BADMEM); [eexists; destruct (plain_shows f (nl ++ chars "--- ERROR: Emulator accessed bad memory" ++ nl) h) as (n1 & E1 & S1); [reflexivity|reflexivity|]; exists n1; split; [reflexivity|split; assumption]|].
    destruct (c =? E_UNDEF); [eexists; destruct (plain_shows f (nl ++ chars "--- ERROR: Emulator hit an undefined opcode" ++ nl) h) as (n1 & E1 & S1); [reflexivity|reflexivity|]; exists n1; split; [reflexivity|split; assumption]|].
    destruct (c =? E_DIVERR); [eexists; destruct (plain_shows f (nl ++ chars "--- ERROR: Division Fault" ++ nl) h) as (n1 & E1 & S1); [reflexivity|reflexivity|]; exists n1; split; [reflexivity|split; assumption]|].
    destruct (unknown_shows f c h Hr) as (x & n1 & Hx & E1 & S1). exists (nl ++ chars "--- ERROR: Unknown error " ++ x ++ nl), n1. split; [exists x; split; [exact Hx|reflexivity]|]. split; assumption.
Qed.
Lemma setup_shows f size kend m h : byte_values m -> layout size kend -> exists m2 low t new,
  k_setup n f uart size kend m h = Some (m2, low, new ++ h) /\ words_line m t /\ shows ((chars "Kernel up and running" ++ nl) ++ t ++ t) new /\
  kend + size <= low < kend + size + 8 /\ low + 4096 < 2 ^ 32 /\
  (forall x, 0 <= x < 4096 -> m2 (low + x) = m x) /\ (forall x, kend <= x < kend + size -> m2 x = 0) /\ (forall x, ~ (kend <= x < kend + size) -> ~ (low <= x < low + 4096) -> m2 x = m x).
Proof.
  intros Bm (L1 & L2 & L3 & L4). unfold k_setup. destruct (plain_shows f (chars "Kernel up and running" ++ nl) h) as (n1 & E1 & S1); [reflexivity|reflexivity|]. rewrite E1.
  pose proof (round8_ge size L3) as [R1 R2]. assert (R3 : round8 size < size + 8) by (unfold round8; lia).
  pose proof (calloc_ok m kend size 1 ltac:(lia) ltac:(lia) ltac:(lia) ltac:(rewrite Z.mul_1_r; lia)) as C. rewrite Z.mul_1_r in C.
  destruct (k_calloc m kend size 1) as [[emu heap1] m1]. destruct C as (-> & -> & C1 & C2). rewrite malloc_eq by (unfold round8 in *; lia).
  set (low := kend + round8 size) in *. assert (Bm1 : forall x, 0 <= m1 x < 256).
  { intros x. destruct (Z_lt_dec x kend); [rewrite C2 by (unfold within; lia); apply Bm|]. destruct (Z_lt_dec x (kend + size)); [|rewrite C2 by (unfold within; lia); apply Bm]. replace x with (kend + (x - kend)) by lia. rewrite C1 by lia. lia. }
  destruct (memcpy_ok m1 low 0 4096 Bm1 ltac:(lia) ltac:(lia) ltac:(lia) ltac:(lia) ltac:(lia) ltac:(lia)) as (M1 & M2). set (m2 := k_memcpy m1 low 0 4096) in *.
  assert (P0 : forall x, 0 <= x < 4096 -> m2 x = m x) by (intros x Hx; rewrite M2 by (unfold within; lia); apply C2; unfold within; lia).
  assert (PL : forall x, 0 <= x < 4096 -> m2 (low + x) = m x) by (intros x Hx; rewrite M1 by lia; apply C2; unfold within; lia).
  assert (G0 : kget16 m2 0 = m 0 + 256 * m 1 /\ kget16 m2 2 = m 2 + 256 * m 3).
  { unfold kget16. rewrite !wrap_small by (unfold inrange; lia). rewrite !P0 by lia. auto. }
  assert (GL : kget16 m2 low = m 0 + 256 * m 1 /\ kget16 m2 (wrap 32 (low + 2)) = m 2 + 256 * m 3).
  { unfold kget16. rewrite !(wrap_small 32) by (unfold inrange; lia). replace low with (low + 0) at 1 by lia. replace (low + 2 + 1) with (low + 3) by lia. rewrite !PL by lia. auto. }
  destruct G0 as [-> ->]. destruct GL as [-> ->]. pose proof (Bm 0). pose proof (Bm 1). pose proof (Bm 2). pose proof (Bm 3).
  destruct (words_shows f (m 0 + 256 * m 1) (m 2 + 256 * m 3) (n1 ++ h)) as (x & y & n2 & Hx & Hy & E2 & S2); [lia|lia|]. rewrite E2.
  destruct (words_shows f (m 0 + 256 * m 1) (m 2 + 256 * m 3) (n2 ++ n1 ++ h)) as (x' & y' & n3 & Hx' & Hy' & E3 & S3); [lia|lia|]. rewrite E3.
  assert (x' = x) as -> by (eapply number_text_unique; [|exact Hx'|exact Hx]; lia). assert (y' = y) as -> by (eapply number_text_unique; [|exact Hy'|exact Hy]; lia).
  exists m2, low, (x ++ chars " " ++ y ++ nl), (n3 ++ n2 ++ n1). split; [rewrite <- !app_assoc; reflexivity|]. split; [exists x, y; auto|]. split.
  - rewrite app_assoc. apply shows_app; [|exact S3]. apply shows_app; assumption.
  - split; [lia|]. split; [lia|]. split; [exact PL|]. split.
    + intros z Hz. rewrite M2 by (unfold within; lia). replace z with (kend + (z - kend)) by lia. apply C1. lia.
    + intros z N1 N2. rewrite M2 by exact N2. apply C2. exact N1.
Qed.
End Console.
(** ** The text identifies the outcome. *)
Lemma digit_char_inj a b : 0 <= a < 16 -> 0 <= b < 16 -> digit_char a = digit_char b -> a = b.
Proof. unfold digit_char. destruct (Z.ltb_spec a 10), (Z.ltb_spec b 10); lia. Qed.
Lemma digits_inj a : forall b, (forall d, In d a -> 0 <= d < 16) -> (forall d, In d b -> 0 <= d < 16) -> map digit_char a = map digit_char b -> a = b.
Proof.
  induction a as [|x a IH]; intros [|y b] Ha Hb H; try discriminate; [reflexivity|]. cbn [map] in H. injection H as H1 H2. rewrite (digit_char_inj x y (Ha x (or_introl eq_refl)) (Hb y (or_introl eq_refl)) H1).
  rewrite (IH b); [reflexivity| | |exact H2]; intros d Hd; [apply Ha|apply Hb]; right; exact Hd.
Qed.
Lemma value_zeros base k ds : value_of base (repeat 0 k ++ ds) = value_of base ds.
Proof. induction k as [|k IH]; [reflexivity|]. cbn [repeat app value_of]. rewrite IH. lia. Qed.
Lemma text_digits base v len pad t : base <= 16 -> pad = 48 \/ len <= 0 -> number_text base v len pad t -> exists es, t = map digit_char es /\ value_of base es = v /\ forall d, In d es -> 0 <= d < 16.
Proof.
  intros Hb Hp (ds & (V & D & Ne & _) & ->). destruct Hp as [->|L].
  - exists (repeat 0 (Z.to_nat (len - Z.of_nat (length ds))) ++ ds). split; [|split].
    + rewrite map_app. f_equal. induction (Z.to_nat _) as [|k IH]; [reflexivity|]. cbn [repeat map]. rewrite <- IH. reflexivity.
    + rewrite value_zeros. exact V.
    + intros d Hd. apply in_app_iff in Hd. destruct Hd as [Hd|Hd]; [apply repeat_spec in Hd; lia|specialize (D d Hd); lia].
  - replace (Z.to_nat (len - Z.of_nat (length ds))) with 0%nat by lia. exists ds. split; [reflexivity|]. split; [exact V|]. intros d Hd. specialize (D d Hd). lia.
Qed.
Lemma text_value base v v' len pad t : base <= 16 -> pad = 48 \/ len <= 0 -> number_text base v len pad t -> number_text base v' len pad t -> v = v'.
Proof.
  intros Hb Hp H1 H2. destruct (text_digits _ _ _ _ _ Hb Hp H1) as (a & Ea & Va & Da). destruct (text_digits _ _ _ _ _ Hb Hp H2) as (b & Eb & Vb & Db).
  assert (a = b) as -> by (apply digits_inj; [exact Da|exact Db|congruence]). congruence.
Qed.
Definition outcome (r : out unit) : option (Z + Z) := match r with Ok _ s => Some (inl (reg 16 AX (ar s))) | Err c _ => Some (inr c) | _ => None end.
Lemma verdict_inj r r' t : verdict r t -> verdict r' t -> outcome r = outcome r'.
Proof.
  destruct r as [u s|c s|x|]; destruct r' as [u' s'|c' s'|x'|]; cbn [verdict outcome]; try contradiction.
  - intros (x & Hx & ->) (y & Hy & H). assert (x = y) as <-. { do 3 apply app_inv_head in H. apply app_inv_head in H. apply app_inv_tail in H. exact H. } rewrite (text_value 16 _ _ 4 48 x ltac:(lia) ltac:(auto) Hx Hy). reflexivity.
  - intros (x & Hx & ->) H. exfalso. repeat (match type of H with context [if ?b then _ else _] => destruct b end); try (destruct H as (d & _ & H)); vm_compute in H; discriminate.
  - intros H (x & Hx & ->). exfalso. repeat (match type of H with context [if ?b then _ else _] => destruct b end); try (destruct H as (d & _ & H)); vm_compute in H; discriminate.
  - intros H H'.
    destruct (Z.eqb_spec c E_INVAL), (Z.eqb_spec c' E_INVAL); try congruence; destruct (Z.eqb_spec c E_BADMEM), (Z.eqb_spec c' E_BADMEM); try congruence;
      destruct (Z.eqb_spec c E_UNDEF), (Z.eqb_spec c' E_UNDEF); try congruence; destruct (Z.eqb_spec c E_DIVERR), (Z.eqb_spec c' E_DIVERR); try congruence;
      try (destruct H as (d & Hd & H)); try (destruct H' as (d' & Hd' & H')); rewrite H in H'; try (exfalso; vm_compute in H'; discriminate).
    do 2 apply app_inv_head in H'. apply app_inv_tail in H'. subst d'. rewrite (text_value 10 _ _ 0 32 d ltac:(lia) ltac:(right; lia) Hd Hd'). reflexivity.
Qed.
