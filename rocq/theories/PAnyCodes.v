(** Result codes of RME_RunOne, RME_Call and RME_CallInt for every memory map, host and state. *)
From Verif Require Import Base Cpu Alu Ops Machine PDebug.

Section Any.
Context (E : env).
Definition only {X} (P : Z -> Prop) (m : M X) : Prop := forall s c s', m s = Err c s' -> P c.
Lemma only_bind {X Y} P (m : M X) (f : X -> M Y) : only P m -> (forall x, only P (f x)) -> only P (bind m f).
Proof. intros H1 H2 s c s'. unfold bind. destruct (m s) as [x s1|c1 s1|r|] eqn:Em; try discriminate; [apply H2|]. intros [= <- <-]. eapply H1, Em. Qed.
Lemma only_getA {X} P (f : arch -> X) : only P (getA f). Proof. intros s c s'. discriminate. Qed.
Lemma only_gets {X} P (f : st -> X) : only P (gets f). Proof. intros s c s'. discriminate. Qed.
Lemma only_getD {X} P (f : dec -> X) : only P (getD f). Proof. intros s c s'. discriminate. Qed.
Lemma only_upd P f : only P (upd_ar f). Proof. intros s c s'. discriminate. Qed.
Lemma only_modify P f : only P (modify f). Proof. intros s c s'. discriminate. Qed.
Lemma only_ret {X} P (x : X) : only P (ret x). Proof. intros s c s'. discriminate. Qed.
Lemma only_rd w sg o : only (eq E_BADMEM) (rd E w sg o).
Proof.
  unfold rd. apply only_bind; [|intros p s c s'; unfold hload; destruct (load_bytes _ _ _); discriminate].
  intros s c s'. unfold getptr. cbv zeta. destruct (_ <? 272); [|discriminate]. destruct (_ && _); [|discriminate]. congruence.
Qed.
Lemma only_wr w sg o v : only (eq E_BADMEM) (wr E w sg o v).
Proof.
  unfold wr. apply only_bind; [|intros p s c s'; unfold hstore; destruct (valid_bytes _ _ _); discriminate].
  intros s c s'. unfold getptr. cbv zeta. destruct (_ <? 272); [|discriminate]. destruct (_ && _); [|discriminate]. congruence.
Qed.
Lemma only_push (v : M Z) : only (eq E_BADMEM) v -> only (eq E_BADMEM) (push E v).
Proof.
  intros Hv. unfold push, getW, setW. repeat (apply only_bind; [first [apply only_getA|apply only_upd|exact Hv]|intros ?]). apply only_wr.
Qed.
Lemma only_callint n : 0 <= n <= 255 -> only (eq E_BADMEM) (int_callint E n).
Proof.
  intros Hn. unfold int_callint. replace ((n <? 0) || (255 <? n)) with false by lia.
  repeat (apply only_bind; [first [apply only_push; apply only_getA|apply only_getA|apply only_upd|apply only_rd]|intros ?]). apply only_upd.
Qed.
Lemma only_dump n : forall cs i, only (eq E_BADMEM) (dump_bytes E n cs i).
Proof. induction n as [|n IH]; intros; cbn [dump_bytes]; [apply only_ret|]. apply only_bind; [apply only_rd|intros; apply IH]. Qed.
Lemma only_trace cs ip : only (eq E_BADMEM) (trace_dump E cs ip).
Proof.
  unfold trace_dump. apply only_bind; [apply only_gets|intros g]. destruct (1 <=? g); [|apply only_ret]. apply only_bind; [apply only_getD|intros o].
  destruct (o <? 0); [intros s c s'; discriminate|apply only_dump].
Qed.
Lemma only_null cs ip : only (fun c => E_BADMEM = c \/ c = E_BREAK) (null_hack E cs ip).
Proof.
  assert (R : forall w sg o, only (fun c => E_BADMEM = c \/ c = E_BREAK) (rd E w sg o)) by (intros w sg o s c s' H; left; eapply only_rd, H).
  unfold null_hack. apply only_bind; [apply only_getD|intros o]. destruct (o =? 2); [|apply only_modify]. apply only_bind; [apply R|intros b1]. apply only_bind; [apply R|intros b2].
  destruct (_ && _); [|apply only_modify]. apply only_bind; [apply only_gets|intros l]. destruct l; [|apply only_modify]. intros s c s' [= <- <-]. auto.
Qed.
Lemma only_loop n : only (fun c => E_BADMEM <= c <= E_HALT) (op_loop E n).
Proof.
  induction n as [|n IH]; intros s c s'; cbn [op_loop]; [discriminate|]. destruct (op_once E s) as [u s1|c1 s1|r|] eqn:Eo; try discriminate.
  pose proof (proj2 (nice_once E s) _ _ Eo) as K. destruct (Z.eqb_spec c1 E_CONTINUE) as [->|N]; [apply IH|]. intros [= <- <-]. destruct K as [K|K]; [contradiction|exact K].
Qed.
Lemma only_main : only (fun c => E_BADMEM <= c <= E_HALT) (do_main E).
Proof.
  assert (NH : forall cs ip, only (fun c => E_BADMEM <= c <= E_HALT) (null_hack E cs ip)).
  { intros cs ip s c s' H. apply only_null in H. destruct H as [<-| ->]; unfold E_BADMEM, E_BREAK, E_HALT; lia. }
  unfold do_main. apply only_bind; [apply only_getA|intros sip]. apply only_bind; [apply only_getA|intros scs]. apply only_bind; [intros s c s'; discriminate|intros _].
  apply only_bind; [apply only_gets|intros n]. destruct (_ =? _); [intros s c s'; discriminate|]. apply only_bind; [apply only_modify|intros _]. apply only_bind; [apply only_loop|intros _].
  apply only_bind; [|intros _; apply NH]. unfold advance_ip. apply only_bind; [apply only_getD|intros b]. destruct b; [apply only_ret|]. apply only_bind; [apply only_getA|intros i]. apply only_bind; [apply only_getD|intros o]. apply only_upd.
Qed.
(** What a stopped machine can report. *)
Definition stop_code (c : Z) : Prop := In c [E_BADMEM; E_UNDEF; E_BUG; E_BREAK; E_HALT].
Theorem run_one_any s c s' : run_one E s = Err c s' -> stop_code c \/ (c = E_FCNRET /\ s' = s /\ r_cs (ar s) = 65535 /\ r_ip (ar s) = 65535).
Proof.
  unfold run_one. destruct ((r_ip (ar s) =? 65535) && (r_cs (ar s) =? 65535)) eqn:H1; [intros [= <- <-]; right; repeat split; lia|].
  destruct ((r_cs (ar s) =? 47104) && (r_ip (ar s) <? 256)).
  - unfold call_hle. destruct (_ =? 0); [destruct (x_iret E _); discriminate|]. match goal with |- context [x_iret E ?x] => destruct (x_iret E x); discriminate end.
  - assert (D : forall c1 s1, do_opcode E s = Err c1 s1 -> E_BADMEM <= c1 <= E_HALT).
    { intros c1 s1. rewrite do_split. destruct (do_main E s) as [u s2|c2 s2|r|] eqn:Ed; try discriminate.
      - intros H. apply only_trace in H. subst c1. unfold E_BADMEM, E_HALT. lia.
      - intros [= <- <-]. apply only_main in Ed. exact Ed. }
    destruct (do_opcode E s) as [u s1|c1 s1|r|]; try discriminate. specialize (D _ _ eq_refl). destruct (Z.eqb_spec c1 E_DIVERR) as [->|N].
    + intros H. apply only_callint in H; [|lia]. subst c. left. unfold stop_code. cbn [In]. auto.
    + intros [= <- <-]. left. unfold stop_code, E_BADMEM, E_HALT, E_DIVERR, E_UNDEF, E_BUG, E_BREAK in *. cbn [In]. lia.
Qed.
Theorem rme_call_any n : forall s c s', rme_call E n s = Err c s' -> stop_code c.
Proof.
  induction n as [|n IH]; intros s c s'; cbn [rme_call]; [discriminate|]. destruct (run_one E s) as [u s1|c1 s1|r|] eqn:Er; try discriminate; [apply IH|].
  destruct (Z.eqb_spec c1 E_FCNRET) as [->|N]; [discriminate|]. intros [= <- <-]. destruct (run_one_any _ _ _ Er) as [K|(K & _)]; [exact K|contradiction].
Qed.
Theorem call_int_any n num s c s' : call_int E n num s = Err c s' -> if (0 <=? num) && (num <=? 255) then stop_code c else c = E_INVAL.
Proof.
  unfold call_int. unfold bind at 1. unfold set_cs. unfold upd_ar at 1, modify at 1. unfold bind at 1. unfold set_ip. unfold upd_ar at 1, modify at 1. unfold bind.
  match goal with |- context [int_callint E num ?x] => generalize x end. intros s0. destruct (Z.leb_spec 0 num), (Z.leb_spec num 255); cbn [andb];
    try (unfold int_callint; replace ((num <? 0) || (255 <? num)) with true by lia; unfold err; congruence).
  destruct (int_callint E num s0) as [u s1|c1 s1|r|] eqn:Ei; try discriminate; [apply rme_call_any|]. intros [= <- <-]. apply only_callint in Ei; [|lia]. subst c1. unfold stop_code. cbn [In]. auto.
Qed.
End Any.
