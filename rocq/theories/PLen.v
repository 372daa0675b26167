(** Every instruction consumes the number of bytes its encoding has: a walk over all handlers. *)
From Verif Require Import Base Cpu Alu Ops Machine Spec SpecOps SpecLen SpecRun PBase PMem PRun PFrame PAlu PExec PIAlu PIAlu2 PTop3 PStop.

(** s' differs from s in the decoder by n more bytes consumed; IP, and if [c] CS, unchanged. *)
Record kp (c : bool) (s s' : st) (n : Z) : Prop := mkKp {
  kp_off : d_ipoff (dc s') = d_ipoff (dc s) + n;
  kp_op : d_op (dc s') = d_op (dc s);
  kp_addr : d_addr (dc s') = d_addr (dc s);
  kp_noip : d_noip (dc s') = d_noip (dc s);
  kp_ip : r_ip (ar s') = r_ip (ar s);
  kp_cs : c = true -> r_cs (ar s') = r_cs (ar s)
}.
Section Adv.
Context (E : env) (c o a : bool).
Definition adv {X} (n : Z) (m : M X) : Prop := forall s v s',
  d_op (dc s) = o -> d_addr (dc s) = a -> m s = Ok v s' -> kp c s s' n.

Lemma kp_refl s : kp c s s 0. Proof. constructor; auto; lia. Qed.
Lemma kp_trans s1 s2 s3 n m : kp c s1 s2 n -> kp c s2 s3 m -> kp c s1 s3 (n + m).
Proof. intros [] []. constructor; intros; try congruence; [lia|]. rewrite kp_cs1, kp_cs0; auto. Qed.
Lemma adv_ret {X} (x : X) : adv 0 (ret x). Proof. intros s v s' _ _ [= <- <-]. apply kp_refl. Qed.
Lemma adv_err {X} n k : adv (X := X) n (err k). Proof. intros s v s' _ _ H. discriminate. Qed.
Lemma adv_undef {X} n k : adv (X := X) n (undef k). Proof. intros s v s' _ _ H. discriminate. Qed.
Lemma adv_bind {X Y} n k (m : M X) (f : X -> M Y) : adv n m -> (forall x, adv k (f x)) -> adv (n + k) (bind m f).
Proof.
  intros H1 H2 s v s' Ho Ha H. unfold bind in H. destruct (m s) as [x s1| | |] eqn:Hm; try discriminate.
  pose proof (H1 _ _ _ Ho Ha Hm) as K. eapply kp_trans; [exact K|]. destruct K. eapply H2; [congruence|congruence|exact H].
Qed.
Lemma adv_eq {X} n k (m : M X) : adv n m -> n = k -> adv k m. Proof. intros H <-. exact H. Qed.
Lemma adv_bind0 {X Y} k (m : M X) (f : X -> M Y) : adv 0 m -> (forall x, adv k (f x)) -> adv k (bind m f).
Proof. intros. change k with (0 + k). apply adv_bind; auto. Qed.
Lemma adv_getD_op {Y} n (f : bool -> M Y) : adv n (f o) -> adv n (bind (getD d_op) f).
Proof. intros H s v s' Ho Ha H1. unfold bind, getD, gets in H1. rewrite Ho in H1. eapply H; eauto. Qed.
Lemma adv_getD_addr {Y} n (f : bool -> M Y) : adv n (f a) -> adv n (bind (getD d_addr) f).
Proof. intros H s v s' Ho Ha H1. unfold bind, getD, gets in H1. rewrite Ha in H1. eapply H; eauto. Qed.
Lemma adv_opw {Y} n (f : Z -> M Y) : adv n (f (if o then 32 else 16)) -> adv n (bind opw f).
Proof.
  intros H s v s' Ho Ha H1. unfold bind, opw, getD, gets in H1. unfold bind in H1. cbn in H1. rewrite Ho in H1. eapply H; eauto.
Qed.
Lemma adv_gets {X} (f : st -> X) : adv 0 (gets f). Proof. intros s v s' _ _ [= <- <-]. apply kp_refl. Qed.
Lemma adv_upd f : (forall x, r_ip (f x) = r_ip x /\ r_cs (f x) = r_cs x) -> adv 0 (upd_ar f).
Proof.
  intros Hf s v s' _ _ [= <- <-]. destruct (Hf (ar s)). constructor; cbn; auto. lia.
Qed.
Lemma adv_get_gpr p w : adv 0 (get_gpr p w). Proof. apply adv_gets. Qed.
Lemma adv_set_gpr p w v : adv 0 (set_gpr p w v). Proof. apply adv_upd. intros; split; reflexivity. Qed.
Lemma adv_flags v : adv 0 (set_flags v). Proof. apply adv_upd. intros; split; reflexivity. Qed.
Lemma adv_hload w p : adv 0 (hload w p). Proof. intros s v s' _ _ H. unfold hload in H. destruct load_bytes; [|discriminate]. injection H as <- <-. apply kp_refl. Qed.
Lemma adv_hstore w p v : adv 0 (hstore w p v).
Proof. intros s x s' _ _ H. unfold hstore in H. destruct valid_bytes; [|discriminate]. injection H as <- <-. constructor; cbn; auto. lia. Qed.
Lemma adv_load w p : adv 0 (load w p). Proof. destruct p; [apply adv_get_gpr|apply adv_hload]. Qed.
Lemma adv_store w p v : adv 0 (store w p v). Proof. destruct p; [apply adv_set_gpr|apply adv_hstore]. Qed.
Lemma adv_getptr x y : adv 0 (getptr E x y).
Proof. intros s v s' _ _ H. unfold getptr in H. cbv zeta in H. destruct (_ <? _); [|discriminate]. destruct (_ && _); [discriminate|]. injection H as <- <-. apply kp_refl. Qed.
Lemma adv_rd w x y : adv 0 (rd E w x y). Proof. apply adv_bind0; [apply adv_getptr|intros; apply adv_hload]. Qed.
Lemma adv_wr w x y v : adv 0 (wr E w x y v). Proof. apply adv_bind0; [apply adv_getptr|intros; apply adv_hstore]. Qed.
Lemma adv_off f n : (forall d, d_ipoff (f d) = d_ipoff d + n /\ d_op (f d) = d_op d /\ d_addr (f d) = d_addr d /\ d_noip (f d) = d_noip d) -> adv n (upd_dc f).
Proof. intros Hf s v s' _ _ [= <- <-]. destruct (Hf (dc s)) as (A & B & C & D). constructor; cbn; auto. Qed.
Lemma adv_fetch w : adv (w / 8) (fetch E w).
Proof.
  unfold fetch. repeat (apply adv_bind0; [first [apply adv_gets|apply adv_rd]|intros]).
  eapply adv_eq; [apply adv_bind; [apply (adv_off _ (w / 8)); intros d; cbn; auto|intros; apply adv_ret]|lia].
Qed.
Lemma adv_fetch8 : adv 1 (fetch8 E). Proof. exact (adv_fetch 8). Qed.
Lemma adv_fetch16 : adv 2 (fetch16 E). Proof. exact (adv_fetch 16). Qed.
Lemma adv_fetch32 : adv 4 (fetch32 E). Proof. exact (adv_fetch 32). Qed.
Lemma adv_fetch8s : adv 1 (fetch8s E). Proof. exact (adv_bind 1 0 _ _ adv_fetch8 (fun _ => adv_ret _)). Qed.
Lemma adv_getseg k : adv 0 (getseg k).
Proof. intros s v s' _ _ H. unfold getseg in H. destruct sreg_of; [|discriminate]. injection H as <- <-. apply kp_refl. Qed.
Lemma adv_chkseg k : adv 0 (chkseg k).
Proof. intros s v s' _ _ H. unfold chkseg in H. destruct sreg_of; [|discriminate]. injection H as <- <-. apply kp_refl. Qed.
Lemma adv_setseg k v : (c = true -> k <> 1) -> adv 0 (setseg k v).
Proof.
  intros Hk s x s' _ _ H. unfold setseg in H. destruct (sreg_set k (wrap 16 v) (ar s)) as [b|] eqn:Hs; [|discriminate]. injection H as <- <-.
  unfold sreg_set in Hs. destruct k as [|[[[]|[]|]|[[]|[]|]|]|]; try discriminate; injection Hs as <-; constructor; cbn; auto; try lia. 
  all: intros Hc; destruct (Hk Hc eq_refl).
Qed.
Hint Resolve adv_ret adv_err adv_undef adv_gets adv_get_gpr adv_set_gpr adv_flags adv_hload adv_hstore adv_load adv_store adv_getptr adv_rd adv_wr adv_getseg adv_chkseg : adv.
Lemma adv_getA {X} (f : arch -> X) : adv 0 (getA f). Proof. apply adv_gets. Qed.
Lemma adv_getflags : adv 0 getflags. Proof. apply adv_gets. Qed.
Lemma adv_getD {X} (f : dec -> X) : adv 0 (getD f). Proof. apply adv_gets. Qed.
Hint Resolve adv_getA adv_getflags adv_getD : adv.
Ltac a0 := first [solve [eauto with adv]|apply adv_bind0; [solve [eauto with adv]|intros]].
Lemma adv_push m : adv 0 m -> adv 0 (push E m).
Proof. intros. unfold push, getW, setW. repeat a0. Qed.
Lemma adv_pop : adv 0 (pop E).
Proof. unfold pop, getW, setW. repeat a0. Qed.
Hint Resolve adv_push adv_pop : adv.
Lemma adv_alu_vals op w dst d v : adv 0 (alu_vals op w dst d v).
Proof. unfold alu_vals. a0. destruct (alu op w d v x) as [r f']. a0. destruct (alu_writes op); a0. Qed.
Hint Resolve adv_alu_vals : adv.
Lemma adv_alu2 op w d v : adv 0 (alu2 op w d v). Proof. unfold alu2. repeat a0. Qed.
Lemma adv_alu2i op w d v : adv 0 (alu2i op w d v). Proof. unfold alu2i. repeat a0. Qed.
Lemma adv_alu1 g w d : adv 0 (alu1 g w d).
Proof. unfold alu1. repeat a0. destruct (g w x x0). repeat a0. Qed.
Hint Resolve adv_alu2 adv_alu2i adv_alu1 : adv.
Lemma adv_mul w p : adv 0 (mul_body w p).
Proof. unfold mul_body, setW. repeat a0. apply adv_bind0; [destruct (w =? 8); repeat a0|intros; repeat a0]. Qed.
Lemma adv_imul w p : adv 0 (imul_body w p).
Proof. unfold imul_body, setW. repeat a0. apply adv_bind0; [destruct (w =? 8); repeat a0|intros; repeat a0]. Qed.
Lemma adv_div w p : adv 0 (div_body w p).
Proof. unfold div_body, setW, getW, setH, setL. a0. destruct (x =? 0); [a0|]. destruct (w =? 8); repeat a0; match goal with |- context [if ?b then _ else _] => destruct b end; repeat a0. Qed.
Lemma adv_idiv w p : adv 0 (idiv_body w p).
Proof.
  unfold idiv_body, setW, getW, setH, setL. a0. destruct (x =? 0); [a0|]. cbv zeta. destruct (w =? 8); repeat a0; repeat match goal with |- context [if ?b then _ else _] => destruct b end; repeat a0.
Qed.
Hint Resolve adv_mul adv_imul adv_div adv_idiv : adv.
Lemma adv_imul2 d x y : adv 0 (imul2 d x y). Proof. unfold imul2. cbv zeta. destruct (_ <=? _); repeat a0. Qed.
Lemma adv_do_shift k w d n : adv 0 (do_shift k w d n).
Proof. unfold do_shift. cbv zeta. destruct (_ =? 0); repeat a0. destruct sh_apply as [[v f]|]; repeat a0. Qed.
Lemma adv_do_dbl l w d x n : adv 0 (do_dbl l w d x n).
Proof. unfold do_dbl. cbv zeta. destruct (_ =? 0); [a0|]. destruct sh_dbl_bad; repeat a0. Qed.
Hint Resolve adv_imul2 adv_do_shift adv_do_dbl : adv.
Lemma adv_misc_select k w arg : adv (if k =? 0 then w / 8 else 0) (misc_select E k w arg).
Proof.
  unfold misc_select. destruct (Z.eqb_spec k 0) as [->|Hk].
  - eapply adv_eq; [apply adv_bind; [apply adv_fetch|intros; repeat a0]|lia].
  - destruct k as [|[[[]|[]|]|[[]|[]|]|]|]; try contradiction; repeat a0.
Qed.
Lemma adv_enter_loop n : adv 0 (enter_loop E n).
Proof. induction n as [|n IH]; cbn [enter_loop]; [a0|]. apply adv_getD_op. destruct o; [a0|]. unfold getW, setW. repeat a0. Qed.
Lemma adv_io_in w p : adv 0 (io_in E w p). Proof. intros s v s' _ _ [= <- <-]. constructor; cbn; auto. lia. Qed.
Lemma adv_io_out w p v : adv 0 (io_out w p v). Proof. intros s x s' _ _ [= <- <-]. constructor; cbn; auto. lia. Qed.
Hint Resolve adv_io_in adv_io_out : adv.
Lemma adv_rep : adv 0 (upd_dc (dd_rep 0)). Proof. apply adv_off. intros d. cbn. repeat split. lia. Qed.
Lemma adv_str_body so w a1 a2 a3 a4 : adv 0 (str_body E so w a1 a2 a3 a4).
Proof. destruct so; cbn [str_body]; unfold getW; repeat a0. Qed.
Lemma adv_str_loop n so w m sg dg : forall x y, adv 0 (str_loop E n so w m sg dg x y).
Proof.
  induction n as [|n IH]; intros x y; cbn [str_loop]; [intros s v s' _ _ H; discriminate|].
  unfold getW, setW. a0. a0. destruct (_ && _); [a0|]. apply adv_bind0; [destruct (x0 =? 0); a0|intros]. apply adv_bind0; [apply adv_str_body|intros].
  a0. cbv zeta. repeat match goal with |- context [if ?b then ret _ else _] => destruct b; [a0|] end. apply IH.
Qed.
Lemma adv_x_str so wide : adv 0 (x_str E so wide).
Proof.
  unfold x_str. apply adv_opw. cbv zeta. apply adv_getD_addr. unfold getW, data_seg.
  apply adv_bind0; [destruct (str_di so); a0|intros]. apply adv_bind0; [destruct (str_di so); a0|intros].
  apply adv_bind0; [destruct (str_si so); repeat a0|intros]. apply adv_bind0; [destruct (str_si so); a0|intros]. a0. a0.
  destruct (_ && _); [apply adv_rep|]. apply adv_bind0; [apply adv_str_loop|intros].
  apply adv_bind0; [destruct (str_di so); a0|intros]. apply adv_bind0; [destruct (str_si so); a0|intros]. apply adv_rep.
Qed.
End Adv.
Global Hint Resolve adv_ret adv_err adv_undef adv_gets adv_get_gpr adv_set_gpr adv_flags adv_hload adv_hstore adv_load adv_store adv_getptr adv_rd adv_wr adv_getseg adv_chkseg
  adv_push adv_pop adv_getA adv_getflags adv_getD adv_alu_vals adv_alu2 adv_alu2i adv_alu1 adv_mul adv_imul adv_div adv_idiv adv_imul2 adv_do_shift adv_do_dbl adv_io_in adv_io_out
  adv_enter_loop adv_x_str adv_fetch8 adv_fetch16 adv_fetch32 adv_fetch8s adv_fetch : adv.
Ltac a0 := first [solve [eauto with adv]|apply adv_bind0; [solve [eauto with adv]|intros]].
Ltac abind := eapply adv_eq; [eapply adv_bind; [|intros]|].

Section Ea.
Context (E : env) (c o a : bool).
Notation adv := (adv c o a).
(** The effective address calculation consumes what is left of the operand after the ModR/M byte. *)
Lemma dofunc_adv mm nd d : 0 <= mm < 8 -> adv (if nd && (mm =? 6) then 2 else 0) (dofunc E mm nd d).
Proof.
  intros Hm. unfold dofunc, ea_segment, getW. apply adv_bind0; [repeat a0|]. intros sg.
  abind; [|a0|rewrite Z.add_0_r; reflexivity].
  assert (mm = 0 \/ mm = 1 \/ mm = 2 \/ mm = 3 \/ mm = 4 \/ mm = 5 \/ mm = 6 \/ mm = 7) as K by lia.
  destruct K as [->|[->|[->|[->|[->|[->|[->| ->]]]]]]]; destruct nd; cbn [andb Z.eqb Pos.eqb]; repeat a0.
  abind; [apply adv_fetch16|a0|reflexivity].
Qed.
Lemma dofunc32_adv mm nd d : 0 <= mm < 8 -> (nd && (mm =? 4) = false) -> adv (if nd && (mm =? 5) then 4 else if mm =? 4 then 1 else 0) (dofunc32 E mm nd d).
Proof.
  intros Hm Hn. unfold dofunc32, ea_segment, getDw. apply adv_bind0; [repeat a0|]. intros sg.
  abind; [|a0|rewrite Z.add_0_r; reflexivity].
  assert (mm = 0 \/ mm = 1 \/ mm = 2 \/ mm = 3 \/ mm = 4 \/ mm = 5 \/ mm = 6 \/ mm = 7) as K by lia.
  destruct K as [->|[->|[->|[->|[->|[->|[->| ->]]]]]]]; destruct nd; cbn [andb Z.eqb Pos.eqb] in *; try discriminate; repeat a0.
  apply (adv_eq _ _ _ (1 + 0)); [|reflexivity]. apply adv_bind; [apply adv_fetch8|intros sib]. cbv zeta. unfold sib_index, getDw.
  apply adv_bind0; [destruct (_ =? 4); a0|intros]. destruct (_ =? 5); repeat a0.
Qed.
End Ea.
Section Head.
Context (E : env) (base : Z) (c o a : bool) (A : arch) (off : Z) (t : list Z).
Hypothesis F : flat E base A.
Hypothesis W : wf_regs A.
Hypothesis C : code_from A off t.
Notation adv := (adv c o a).
Definition start (s : st) : Prop := ar s = A /\ d_op (dc s) = o /\ d_addr (dc s) = a /\ d_ipoff (dc s) = off.
Definition hd {X} (n : Z) (m : M X) : Prop := forall s v s', start s -> m s = Ok v s' -> kp c s s' n.
Lemma hd_adv {X} n (m : M X) : adv n m -> hd n m.
Proof. intros H s v s' (_ & Ho & Ha & _) Hm. eapply H; eauto. Qed.
Lemma hd_eq {X} n k (m : M X) : hd n m -> n = k -> hd k m. Proof. intros H <-. exact H. Qed.
Lemma hd_gets {X Y} (f : st -> X) n (g : X -> M Y) : (forall x, hd n (g x)) -> hd n (bind (gets f) g).
Proof. intros H s v s' Hs Hm. exact (H _ s v s' Hs Hm). Qed.
Lemma hd_gpr {Y} p w n (g : Z -> M Y) : (forall x, hd n (g x)) -> hd n (bind (get_gpr p w) g).
Proof. apply hd_gets. Qed.
Lemma hd_op {Y} n (f : bool -> M Y) : hd n (f o) -> hd n (bind (getD d_op) f).
Proof. intros H s v s' Hs H1. unfold bind, getD, gets in H1. pose proof Hs as (_ & Ho & _). rewrite Ho in H1. eapply H; eauto. Qed.
Lemma hd_opw {Y} n (f : Z -> M Y) : hd n (f (if o then 32 else 16)) -> hd n (bind opw f).
Proof.
  intros H s v s' Hs H1. pose proof Hs as (_ & Ho & _). unfold bind, opw, getD, gets in H1. unfold bind in H1. cbn in H1. rewrite Ho in H1. eapply H; eauto.
Qed.
Context (b : Z) (u : list Z).
Hypothesis Ht : t = b :: u.
Lemma start_fetch s : start s -> fetch8 E s = Ok b (mkSt A (dd_ipoff (off + 1) (dc s)) (dbg s) (icount s) (lastnull s)).
Proof.
  intros (Ha & _ & _ & Hf). destruct s as [x d g n l]. cbn [ar dc dbg icount lastnull] in *. subst x. rewrite <- Hf. eapply fetch8_code; eauto. rewrite Hf, <- Ht. exact C.
Qed.
Lemma hd_peek {Y} n (f : Z -> M Y) : hd n (f b) -> hd n (bind (peek8 E) f).
Proof.
  intros H s v s' Hs H1. unfold bind in H1. unfold peek8, bind in H1. rewrite (start_fetch s Hs) in H1.
  unfold upd_dc, modify, set_dc, ret in H1. cbn [ar dc dbg icount lastnull] in H1.
  assert (Hs1 : mkSt A (dd_ipoff (d_ipoff (dd_ipoff (off + 1) (dc s)) - 1) (dd_ipoff (off + 1) (dc s))) (dbg s) (icount s) (lastnull s) = s).
  { destruct Hs as (Ha & _ & _ & Hf). destruct s as [x d g i l]. destruct d. cbn in *. subst. unfold dd_ipoff. cbn. f_equal. f_equal. lia. }
  rewrite Hs1 in H1. eapply H; eauto.
Qed.
Lemma sib_adv s v s' d : start s -> dofunc32 E 4 true d s = Ok v s' -> kp c s s' (1 + if b mod 8 =? 5 then 4 else 0).
Proof.
  intros Hs H. unfold dofunc32 in H. unfold bind at 1 in H. unfold ea_segment, bind at 1, getD, gets, getseg in H.
  match type of H with match match ?q with _ => _ end with _ => _ end = _ => destruct q as [sg|]; [|discriminate] end.
  unfold bind at 1 in H. unfold bind at 1 in H. rewrite (start_fetch s Hs) in H.
  pose proof Hs as (H1 & H2 & H3 & H4).
  assert (K : kp c s (mkSt A (dd_ipoff (off + 1) (dc s)) (dbg s) (icount s) (lastnull s)) 1) by (constructor; cbn; try congruence; lia).
  match type of H with match ?m with _ => _ end = _ => destruct m as [y s1| | |] eqn:Hm; try discriminate end. injection H as <- <-.
  eapply kp_trans; [exact K|].
  assert (Hadv : adv (if b mod 8 =? 5 then 4 else 0) (i <- sib_index (b / 8 mod 8) ;; (if b mod 8 =? 5 then fetch32 E ;;; ret (wrap 32 (i * 2 ^ (b / 64))) else b0 <- getDw (b mod 8) ;; ret (wrap 32 (wrap 32 (i * 2 ^ (b / 64)) + b0))))).
  { unfold sib_index, getDw. apply adv_bind0; [destruct (_ =? 4); a0|intros]. destruct (b mod 8 =? 5); [|repeat a0]. apply (adv_eq _ _ _ (4 + 0)); [|reflexivity]. apply adv_bind; [apply adv_fetch32|intros; a0]. }
  eapply Hadv; [| |exact Hm]; cbn; assumption.
Qed.
Lemma mmm_adv m s v s' : start s -> 0 <= m < 256 -> m / 64 <> 3 -> (a = true -> m / 64 = 0 -> m mod 8 <> 4) ->
  get_mmm E (modrm_of m) s = Ok v s' ->
  kp c s s' (if a then (if (m / 64 =? 0) && (m mod 8 =? 5) then 4 else (if m / 64 =? 1 then 1 else if m / 64 =? 2 then 4 else 0) + (if m mod 8 =? 4 then 1 else 0))
             else if m / 64 =? 1 then 1 else if m / 64 =? 2 then 2 else if m mod 8 =? 6 then 2 else 0).
Proof.
  intros Hs Hm H3 Hsib H. assert (Hr : 0 <= m mod 8 < 8) by (apply Z.mod_pos_bound; lia). assert (Hq : 0 <= m / 64 < 4) by (split; [apply Z.div_pos; lia|apply Z.div_lt_upper_bound; lia]).
  refine (hd_adv _ _ _ s v s' Hs H). clear H. unfold get_mmm, modrm_of. cbn [m_mod m_mmm]. apply adv_getD_addr.
  assert (m / 64 = 0 \/ m / 64 = 1 \/ m / 64 = 2) as [K|[K|K]] by lia; rewrite K in *; destruct a; cbn [Z.eqb Pos.eqb andb].
  - specialize (Hsib eq_refl eq_refl). eapply adv_eq; [apply dofunc32_adv; [exact Hr|lia]|]. replace (m mod 8 =? 4) with false by lia. destruct (_ =? 5); reflexivity.
  - eapply adv_eq; [apply dofunc_adv; exact Hr|reflexivity].
  - eapply adv_eq; [apply adv_bind; [apply adv_fetch8s|intros; apply dofunc32_adv; [exact Hr|reflexivity]]|reflexivity].
  - eapply adv_eq; [apply adv_bind; [apply adv_fetch8s|intros; apply dofunc_adv; exact Hr]|reflexivity].
  - eapply adv_eq; [apply adv_bind; [apply adv_fetch32|intros; apply dofunc32_adv; [exact Hr|reflexivity]]|reflexivity].
  - eapply adv_eq; [apply adv_bind; [apply adv_fetch16|intros; apply dofunc_adv; exact Hr]|reflexivity].
Qed.
End Head.
Section Rm.
Context (E : env) (base : Z) (c o a : bool) (A : arch) (off : Z) (b : Z) (u : list Z) (k : Z).
Hypothesis F : flat E base A.
Hypothesis W : wf_regs A.
Hypothesis C : code_from A off (b :: u).
Hypothesis Hk : modrm_size a (b :: u) = Some k.
Notation adv := (adv c o a).
Notation start := (start o a A off).
Notation start1 := (PLen.start o a A (off + 1)).
Notation hd := (hd c o a A off).
Lemma b_range : 0 <= b < 256. Proof. eapply code_byte_range; eauto. Qed.
Lemma mmm_size s v s' : start1 s -> b / 64 <> 3 -> get_mmm E (modrm_of b) s = Ok v s' -> kp c s s' (k - 1).
Proof.
  intros Hs H3 H. pose proof b_range as Hb. destruct (code_from_cons _ _ _ _ C) as [_ C1]. cbn [modrm_size] in Hk. replace (b / 64 =? 3) with false in Hk by lia.
  assert (Hq : 0 <= b / 64 < 4) by (split; [apply Z.div_pos; lia|apply Z.div_lt_upper_bound; lia]).
  destruct (a && (b / 64 =? 0) && (b mod 8 =? 4)) eqn:Hsib.
  - rewrite !andb_true_iff, !Z.eqb_eq in Hsib. destruct Hsib as [[Ha H0] H4]. pose proof Hs as (_ & _ & Ha' & _). 
    unfold get_mmm, modrm_of in H. cbn [m_mod m_mmm] in H. rewrite H0, H4 in H. unfold bind, getD, gets in H. rewrite Ha', Ha in H.
    rewrite Ha, H0, H4 in Hk. cbn [Z.eqb Pos.eqb andb] in Hk. destruct u as [|sib u']; [discriminate|].
    pose proof (sib_adv E base c o a A (off + 1) (sib :: u') F W C1 sib u' eq_refl s v s' 0 Hs H) as K.
    replace (k - 1) with (1 + (if sib mod 8 =? 5 then 4 else 0)); [exact K|]. injection Hk as <-. destruct (sib mod 8 =? 5); lia.
  - pose proof (mmm_adv E c o a A (off + 1) b s v s' Hs Hb H3) as K.
    assert (Hn : a = true -> b / 64 = 0 -> b mod 8 <> 4). { intros Ha H0 H4. rewrite Ha, H0, H4 in Hsib. discriminate. }
    specialize (K Hn H). match type of K with kp _ _ _ ?x => replace (k - 1) with x; [exact K|] end. clear K H. destruct a.
    + cbv zeta in Hk. destruct (Z.eqb_spec (b mod 8) 4) as [H4|H4].
      * destruct u as [|sib u']; [discriminate|]. assert (b / 64 <> 0) by (intros H0; apply Hn; auto). replace (b / 64 =? 0) with false in * by lia. cbn [andb] in *. injection Hk as <-. lia.
      * injection Hk as <-. destruct ((b / 64 =? 0) && (b mod 8 =? 5)); lia.
    + injection Hk as <-. lia.
Qed.
Lemma size_reg : b / 64 = 3 -> k = 1.
Proof. intros H. cbn [modrm_size] in Hk. rewrite H in Hk. cbn in Hk. congruence. Qed.
Lemma modm_size s v s' : start1 s -> decode_modm E (modrm_of b) s = Ok v s' -> kp c s s' (k - 1).
Proof.
  intros Hs H. unfold decode_modm, modrm_of in H. cbn [m_mod m_mmm] in H. destruct (Z.eqb_spec (b / 64) 3) as [H3|H3].
  - injection H as <- <-. rewrite size_reg by exact H3. apply kp_refl.
  - unfold bind at 1 in H. change (mkModrm (b / 64) (b / 8 mod 8) (b mod 8)) with (modrm_of b) in H. destruct (get_mmm E (modrm_of b) s) as [x s1| | |] eqn:Hm; try discriminate.
    pose proof (mmm_size _ _ _ Hs H3 Hm) as K. replace (k - 1) with (k - 1 + 0) by lia. eapply kp_trans; [exact K|].
    refine (_ : kp c s1 s' 0). assert (Hadv : adv 0 (p <- getptr E (fst x) (snd x) ;; ret (PMem p))) by repeat a0.
    pose proof Hs as (_ & Ho & Ha & _). destruct K. eapply Hadv; [| |exact H]; congruence.
Qed.
Lemma modmx_size s v s' : start1 s -> decode_modmx E (modrm_of b) s = Ok v s' -> kp c s s' (k - 1).
Proof.
  intros Hs H. unfold decode_modmx, modrm_of in H. cbn [m_mod m_mmm] in H. destruct (Z.eqb_spec (b / 64) 3) as [H3|H3].
  - injection H as <- <-. rewrite size_reg by exact H3. apply kp_refl.
  - unfold bind at 1 in H. change (mkModrm (b / 64) (b / 8 mod 8) (b mod 8)) with (modrm_of b) in H. destruct (get_mmm E (modrm_of b) s) as [x s1| | |] eqn:Hm; try discriminate.
    pose proof (mmm_size _ _ _ Hs H3 Hm) as K. replace (k - 1) with (k - 1 + 0) by lia. eapply kp_trans; [exact K|].
    destruct (_ =? 4095); [discriminate|].
    assert (Hadv : adv 0 (p <- getptr E (fst x) (snd x) ;; ret (PMem p))) by repeat a0.
    pose proof Hs as (_ & Ho & Ha & _). destruct K. eapply Hadv; [| |exact H]; congruence.
Qed.
Lemma hd_rm {X Y} n (D : modrm -> M X) (f : modrm -> X -> M Y) :
  (forall s v s', start1 s -> D (modrm_of b) s = Ok v s' -> kp c s s' (k - 1)) -> (forall x, adv n (f (modrm_of b) x)) ->
  hd (k + n) (bind (get_modrm E) (fun m => bind (D m) (f m))).
Proof.
  intros HD Hf s v s' Hs H. unfold get_modrm in H. unfold bind at 1 in H. unfold bind at 1 in H.
  rewrite (start_fetch E base o a A off (b :: u) F W C b u eq_refl s Hs) in H. unfold ret in H.
  set (s1 := mkSt A (dd_ipoff (off + 1) (dc s)) (dbg s) (icount s) (lastnull s)) in H.
  pose proof Hs as (H1 & H2 & H3 & H4).
  assert (Hs1 : start1 s1) by (repeat split; auto). assert (K1 : kp c s s1 1) by (constructor; cbn; try congruence; lia).
  unfold bind in H. destruct (D (modrm_of b) s1) as [x s2| | |] eqn:Hd; try discriminate.
  pose proof (HD _ _ _ Hs1 Hd) as K2. pose proof (kp_trans _ _ _ _ _ _ K1 K2) as K. replace (k + n) with (1 + (k - 1) + n) by lia.
  eapply kp_trans; [exact K|]. destruct K. eapply Hf; [| |exact H]; congruence.
Qed.
Lemma hd_parse {Y} n (f : ptr * ptr -> M Y) : (forall x, adv n (f x)) -> hd (k + n) (bind (parse_modrm E) f).
Proof.
  intros Hf s v s' Hs H. pose proof (hd_rm n (decode_modm E) (fun m p => f (regB (m_rrr m), p)) modm_size (fun x => Hf _) s v s' Hs) as K. apply K.
  clear K. rewrite <- H. unfold parse_modrm, bind. destruct (get_modrm E s); try reflexivity. destruct (decode_modm E x s0); reflexivity.
Qed.
Lemma hd_parsex {Y} n (f : ptr * ptr -> M Y) : (forall x, adv n (f x)) -> hd (k + n) (bind (parse_modrmx E) f).
Proof.
  intros Hf s v s' Hs H. pose proof (hd_rm n (decode_modmx E) (fun m p => f (regW (m_rrr m), p)) modmx_size (fun x => Hf _) s v s' Hs) as K. apply K.
  clear K. rewrite <- H. unfold parse_modrmx, bind. destruct (get_modrm E s); try reflexivity. destruct (decode_modmx E x s0); reflexivity.
Qed.
Lemma hd_mem {Y} n (f : modrm -> Z * Z -> M Y) : (forall x, adv n (f (modrm_of b) x)) ->
  hd (k + n) (bind (get_modrm E) (fun m => if m_mod m =? 3 then err E_UNDEF else bind (get_mmm E m) (f m))).
Proof.
  intros Hf s v s' Hs H. unfold get_modrm in H. unfold bind at 1 in H. unfold bind at 1 in H.
  rewrite (start_fetch E base o a A off (b :: u) F W C b u eq_refl s Hs) in H. unfold ret in H.
  unfold modrm_of at 1 in H. cbn [m_mod] in H. destruct (Z.eqb_spec (b / 64) 3) as [H3|H3]; [discriminate|].
  apply (hd_rm n (get_mmm E) f (fun s v s' Hs => mmm_size s v s' Hs H3) Hf s v s' Hs).
  unfold get_modrm. unfold bind at 1. unfold bind at 1. rewrite (start_fetch E base o a A off (b :: u) F W C b u eq_refl s Hs). exact H.
Qed.
End Rm.
(** Layout per handler. *)
Definition op_layout (x : opid) : option layout :=
  match x with
  | OAlu _ F_AI => Some (Plain (Bytes 1)) | OAlu _ F_AIX => Some (Plain OpSize) | OAlu _ _ => Some (RegMem (Bytes 0))
  | OArithMI | OArithMI8X => Some (RegMem (Bytes 1)) | OArithMIX => Some (RegMem OpSize)
  | OIncReg | ODecReg => Some (Plain (Bytes 0))
  | OMiscMI => Some (Group3 (Bytes 1)) | OMiscMIX => Some (Group3 OpSize)
  | OImulMI8X => Some (RegMem (Bytes 1)) | OImulMIX => Some (RegMem OpSize) | OImulRMX => Some (RegMem (Bytes 0))
  | OShiftMI | OShiftMI8X => Some (RegMem (Bytes 1)) | OShiftM1 | OShiftM1X | OShiftMCl | OShiftMClX => Some (RegMem (Bytes 0))
  | OShrdI8 | OShldI8 => Some (RegMem (Bytes 1)) | OShrdCl | OShldCl => Some (RegMem (Bytes 0))
  | OUnaryM | OUnaryMX => Some (RegMem (Bytes 0))
  | OEnter => Some (Plain (Bytes 3)) | OLeave | OFlag _ => Some (Plain (Bytes 0))
  | OInADx | OInADxX | OOutDxA | OOutDxAX => Some (Plain (Bytes 0)) | OInAI | OInAIX | OOutAI | OOutAIX => Some (Plain (Bytes 1))
  | OCbw | OHlt | OAaa | OAas | ODaa | ODas | OCwd | OXlat => Some (Plain (Bytes 0)) | OAam | OAad => Some (Plain (Bytes 1))
  | OBsf | OLxs _ | OLea => Some (RegMem (Bytes 0)) | OBtx => Some (RegMem (Bytes 1))
  | OMovMR | OMovMRX | OMovRM | OMovRMX | OMovRS | OMovSR | OMovZ | OMovZX | OXchgRM | OXchgRMX => Some (RegMem (Bytes 0))
  | OMovMI => Some (RegMem (Bytes 1)) | OMovMIX => Some (RegMem OpSize)
  | OMovAMo | OMovAMoX | OMovMoA | OMovMoAX => Some (Plain AddrSize)
  | OMovRegB => Some (Plain (Bytes 1)) | OMovReg => Some (Plain OpSize)
  | OXchgReg | OPushSeg | OPopSeg | OPushReg | OPopReg | OPushA | OPopA | OPushF | OPopF => Some (Plain (Bytes 0))
  | OPopMX => Some (RegMem (Bytes 0)) | OPushI => Some (Plain OpSize) | OPushI8 => Some (Plain (Bytes 1))
  | OStr _ _ => Some (Plain (Bytes 0))
  | _ => None
  end.
