(** The disassembly text buffer: Decoder.DebugString[64] and DebugStringLen (rme.h:198-199). *)
From Coq Require Import Arith.
From Verif Require Import Base.

(** [t_len] is DebugStringLen, [t_buf] the 64 bytes of DebugString. *)
Record tbuf : Type := mkT { t_len : nat; t_buf : list Z }.

(** Write the bytes [t] at index [i]; None if that leaves the buffer. *)
Definition splice (i : nat) (t l : list Z) : option (list Z) :=
  if (i + length t <=? length l)%nat then Some (firstn i l ++ t ++ skipn (i + length t) l) else None.
(** vsnprintf(buf + i, space, ...) of text [t] (ISO C 7.21.6.12): at most space-1 characters and
    a NUL, nothing if space is 0.  (Encoding errors, a negative result, are not modelled: the
    formats used are plain %s, %i, %x.) *)
Definition vsnprintf (i space : nat) (t l : list Z) : option (list Z) :=
  match space with O => Some l | S n => splice i (firstn n t ++ [0]) l end.
(** RME_Int_DebugPrint: rme_internal.h:196-213. *)
Definition debug_print (t : list Z) (b : tbuf) : option tbuf :=
  let space := (64 - t_len b)%nat in
  match vsnprintf (t_len b) space t (t_buf b) with
  | None => None
  | Some l =>
    if (length t <? space)%nat then Some (mkT (t_len b + length t) l)
    else match splice 62 [36] l with
         | Some l1 => match splice 63 [0] l1 with Some l2 => Some (mkT 64 l2) | None => None end
         | None => None
         end
  end.
(** Start of an instruction: rme.c:216-217. *)
Definition debug_reset (b : tbuf) : option tbuf :=
  match splice 0 [0] (t_buf b) with Some l => Some (mkT 0 l) | None => None end.
Fixpoint debug_prints (ts : list (list Z)) (b : tbuf) : option tbuf :=
  match ts with
  | [] => Some b
  | t :: r => match debug_print t b with Some b' => debug_prints r b' | None => None end
  end.

(** ** Specification *)
(** The C string in a buffer: the bytes before the first NUL; None if there is no NUL. *)
Fixpoint cstring (l : list Z) : option (list Z) :=
  match l with
  | [] => None
  | b :: r => if b =? 0 then Some [] else option_map (cons b) (cstring r)
  end.
(** The text shown for the printed text [t]: all of it, or its first 62 characters and a '$'. *)
Definition shown (t : list Z) : list Z := if (length t <? 64)%nat then t else firstn 62 t ++ [36].

(** ** Proofs *)
Lemma splice_at a t r x : length x = length t -> splice (length a) t (a ++ x ++ r) = Some (a ++ t ++ r).
Proof.
  intros H. unfold splice. rewrite !app_length. replace (length a + length t <=? length a + (length x + length r))%nat with true
    by (symmetry; apply Nat.leb_le; lia).
  f_equal. rewrite firstn_app, Nat.sub_diag, firstn_all, app_nil_r. cbn [firstn]. f_equal. f_equal.
  rewrite skipn_app. rewrite skipn_all2 by lia. cbn [app]. replace (length a + length t - length a)%nat with (length x) by lia.
  rewrite skipn_app, skipn_all, Nat.sub_diag. reflexivity.
Qed.
Lemma split_at {X} n (l : list X) : (n <= length l)%nat -> exists x r, l = x ++ r /\ length x = n.
Proof. intros. exists (firstn n l), (skipn n l). split; [symmetry; apply firstn_skipn|apply firstn_length_le; auto]. Qed.
(** The buffer after text [t] in total. *)
Definition holds (t : list Z) (b : tbuf) : Prop :=
  length (t_buf b) = 64%nat /\
  if (length t <? 64)%nat then t_len b = length t /\ exists r, t_buf b = t ++ 0 :: r
  else t_len b = 64%nat /\ t_buf b = firstn 62 t ++ [36; 0].
Lemma print_holds t u b : holds t b -> exists b', debug_print u b = Some b' /\ holds (t ++ u) b'.
Proof.
  intros [HL H]. unfold debug_print, holds. rewrite app_length. destruct (Nat.ltb_spec (length t) 64) as [Hlt|Hge].
  - destruct H as [Hn [r Hb]]. rewrite Hn. rewrite Hb in HL |- *. rewrite app_length in HL. cbn [length] in HL.
    destruct (64 - length t)%nat as [|n] eqn:Hsp; [lia|]. cbn [vsnprintf].
    assert (Hfl : length (firstn n u ++ [0]) = S (Nat.min n (length u))) by (rewrite app_length, firstn_length; cbn; lia).
    destruct (split_at (S (Nat.min n (length u))) (0 :: r)) as (x & r' & Hx & Hxl); [cbn; lia|].
    rewrite Hx, (splice_at t (firstn n u ++ [0]) r' x) by congruence.
    assert (Hr' : length r' = (63 - length t - Nat.min n (length u))%nat).
    { apply (f_equal (@length Z)) in Hx. rewrite app_length, Hxl in Hx. cbn [length] in Hx. lia. }
    destruct (Nat.ltb_spec (length u) (S n)) as [Hu|Hu].
    + eexists. split; [reflexivity|]. cbn [t_buf t_len]. split.
      * rewrite !app_length, firstn_length. cbn [length]. lia.
      * replace (length t + length u <? 64)%nat with true by (symmetry; apply Nat.ltb_lt; lia). split; [reflexivity|].
        exists r'. rewrite firstn_all2 by lia. rewrite <- !app_assoc. reflexivity.
    + assert (Hnil : r' = []) by (destruct r'; [reflexivity|cbn [length] in Hr'; lia]). subst r'.
      assert (Hw : t ++ (firstn n u ++ [0]) ++ [] = firstn 62 (t ++ u) ++ firstn 2 (skipn 62 (t ++ firstn n u ++ [0]))).
      { rewrite app_nil_r. rewrite <- (firstn_skipn 62 (t ++ firstn n u ++ [0])) at 1. f_equal.
        - rewrite !firstn_app. f_equal. rewrite firstn_firstn. 
          replace (62 - length t - length (firstn n u))%nat with 0%nat by (rewrite firstn_length; lia).
          cbn [firstn]. rewrite app_nil_r. f_equal. lia.
        - symmetry. apply firstn_all2. rewrite skipn_length, !app_length, firstn_length. cbn. lia. }
      rewrite Hw. set (y := firstn 2 _). assert (Hy : length y = 2%nat).
      { unfold y. rewrite firstn_length, skipn_length, !app_length, firstn_length. cbn [length]. lia. }
      destruct y as [|y0 [|y1 [|]]]; try discriminate Hy. clear Hy Hw.
      assert (Hf : length (firstn 62 (t ++ u)) = 62%nat) by (rewrite firstn_length, app_length; lia).
      pose proof (splice_at (firstn 62 (t ++ u)) [36] [y1] [y0] eq_refl) as S1. rewrite Hf in S1. cbn [app] in S1. rewrite S1.
      pose proof (splice_at (firstn 62 (t ++ u) ++ [36]) [0] [] [y1] eq_refl) as S2. rewrite app_length, Hf in S2.
      cbn [app length] in S2. rewrite <- !app_assoc in S2. cbn [app] in S2.
      change (62 + 1)%nat with 63%nat in S2. rewrite S2.
      eexists. split; [reflexivity|]. cbn [t_buf t_len]. split; [rewrite app_length, Hf; reflexivity|].
      replace (length t + length u <? 64)%nat with false by (symmetry; apply Nat.ltb_ge; lia). auto.
  - destruct H as [Hn Hb]. rewrite Hn. change (64 - 64)%nat with 0%nat. cbn [vsnprintf].
    replace (length u <? 0)%nat with false by (symmetry; apply Nat.ltb_ge; lia). rewrite Hb.
    assert (Hf : length (firstn 62 t) = 62%nat) by (rewrite firstn_length; lia).
    pose proof (splice_at (firstn 62 t) [36] [0] [36] eq_refl) as S1. rewrite Hf in S1. cbn [app] in S1. rewrite S1.
    pose proof (splice_at (firstn 62 t ++ [36]) [0] [] [0] eq_refl) as S2. rewrite app_length, Hf in S2.
    cbn [app length] in S2. rewrite <- !app_assoc in S2. cbn [app] in S2. change (62 + 1)%nat with 63%nat in S2. rewrite S2.
    eexists. split; [reflexivity|]. cbn [t_buf t_len]. split; [rewrite app_length, Hf; reflexivity|].
    replace (length t + length u <? 64)%nat with false by (symmetry; apply Nat.ltb_ge; lia). split; [reflexivity|].
    rewrite firstn_app. replace (62 - length t)%nat with 0%nat by lia. cbn [firstn]. rewrite app_nil_r. reflexivity.
Qed.
Lemma prints_holds ts : forall t b, holds t b -> exists b', debug_prints ts b = Some b' /\ holds (t ++ concat ts) b'.
Proof.
  induction ts as [|u r IH]; intros t b H; cbn [debug_prints concat].
  - exists b. rewrite app_nil_r. auto.
  - destruct (print_holds t u b H) as (b1 & -> & H1). destruct (IH _ _ H1) as (b2 & -> & H2).
    exists b2. rewrite app_assoc. auto.
Qed.
Lemma reset_holds b : length (t_buf b) = 64%nat -> exists b', debug_reset b = Some b' /\ holds [] b'.
Proof.
  intros H. unfold debug_reset, splice. cbn [length]. rewrite H. cbn [Nat.add Nat.leb firstn app].
  eexists. split; [reflexivity|]. unfold holds. cbn [t_buf t_len length Nat.ltb Nat.leb].
  split; [rewrite skipn_length; lia|]. split; [reflexivity|]. eexists. reflexivity.
Qed.
Lemma cstring_app t r : Forall (fun c => c <> 0) t -> cstring (t ++ 0 :: r) = Some t.
Proof.
  induction 1 as [|c t Hc Ht IH]; cbn [app cstring]; [reflexivity|]. replace (c =? 0) with false by lia. rewrite IH. reflexivity.
Qed.
Theorem trace_buffer b ts : length (t_buf b) = 64%nat -> Forall (Forall (fun c => c <> 0)) ts ->
  exists b0 b', debug_reset b = Some b0 /\ debug_prints ts b0 = Some b' /\
    length (t_buf b') = 64%nat /\ (t_len b' <= 64)%nat /\ cstring (t_buf b') = Some (shown (concat ts)).
Proof.
  intros HL Hz. destruct (reset_holds b HL) as (b0 & -> & H0). destruct (prints_holds ts [] b0 H0) as (b' & Hp & H').
  cbn [app] in H'. exists b0, b'. split; [reflexivity|]. split; [exact Hp|]. destruct H' as [H1 H2]. split; [exact H1|].
  assert (Hc : Forall (fun c => c <> 0) (concat ts)).
  { clear -Hz. induction Hz; cbn [concat]; [constructor|]. apply Forall_app. auto. }
  unfold shown. destruct (Nat.ltb_spec (length (concat ts)) 64) as [Hlt|Hge].
  - destruct H2 as [-> [r ->]]. split; [lia|]. apply cstring_app, Hc.
  - destruct H2 as [-> ->]. split; [lia|]. change [36; 0] with ([36] ++ 0 :: []). rewrite app_assoc. apply cstring_app.
    apply Forall_app. split; [|constructor; [discriminate|constructor]].
    rewrite <- (firstn_skipn 62 (concat ts)) in Hc. apply Forall_app in Hc. apply Hc.
Qed.
