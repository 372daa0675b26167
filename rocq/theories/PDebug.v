(** Tracing (C15) and the function-return code (C02): every handler ignores the debug level and
    never returns RME_ERR_FCNRET. *)
From Verif Require Import Base Cpu Alu Ops Machine.

Definition omap {X} (f : st -> st) (o : out X) : out X :=
  match o with Ok x s => Ok x (f s) | Err c s => Err c (f s) | UB r => UB r | Fuel => Fuel end.
Definition cb_blind (E : env) : Prop := forall h n g s, callback E h n (set_dbg g s) = set_dbg g (callback E h n s).

(** The codes a handler may return: not INVAL, not FCNRET. *)
Definition opcode_code (c : Z) : Prop := c = E_CONTINUE \/ E_BADMEM <= c <= E_HALT.

Section Nice.
Context (E : env).
Definition nice {X} (m : M X) : Prop := forall s,
  (cb_blind E -> forall g, m (set_dbg g s) = omap (set_dbg g) (m s)) /\ (forall c s', m s = Err c s' -> opcode_code c).

Lemma nice_bind {X Y} (m : M X) (f : X -> M Y) : nice m -> (forall x, nice (f x)) -> nice (bind m f).
Proof.
  intros H1 H2 s. destruct (H1 s) as [A B]. split.
  - intros HC g. unfold bind. rewrite (A HC). destruct (m s) as [x s'|c s'|r|]; cbn [omap]; auto. apply (H2 x s'), HC.
  - intros c s'. unfold bind. destruct (m s) as [x s1|c1 s1|r|] eqn:Hm; try discriminate.
    + apply (H2 x s1).
    + intros [= <- <-]. eapply B, eq_refl.
Qed.
Lemma nice_ret {X} (x : X) : nice (ret x). Proof. intros s. split; [reflexivity|discriminate]. Qed.
Ltac ccode := unfold opcode_code, E_CONTINUE, E_BADMEM, E_UNDEF, E_DIVERR, E_BUG, E_BREAK, E_HALT; lia.
Lemma nice_err {X} c : opcode_code c -> nice (@err X c). Proof. intros H s. split; [reflexivity|]. unfold err. congruence. Qed.
Lemma nice_undef {X} r : nice (@undef X r). Proof. intros s. split; [reflexivity|discriminate]. Qed.
Lemma nice_fuel {X} : nice (fun _ => @Fuel X). Proof. intros s. split; [reflexivity|discriminate]. Qed.
Lemma nice_getA {X} (f : arch -> X) : nice (getA f). Proof. intros s. split; [reflexivity|discriminate]. Qed.
Lemma nice_getD {X} (f : dec -> X) : nice (getD f). Proof. intros s. split; [reflexivity|discriminate]. Qed.
Lemma nice_lastnull : nice (gets lastnull). Proof. intros s. split; [reflexivity|discriminate]. Qed.
Lemma nice_icount : nice (gets icount). Proof. intros s. split; [reflexivity|discriminate]. Qed.
Lemma nice_set_lastnull b : nice (modify (set_lastnull b)). Proof. intros s. split; [reflexivity|discriminate]. Qed.
Lemma nice_set_icount b : nice (modify (set_icount b)). Proof. intros s. split; [reflexivity|discriminate]. Qed.
Lemma nice_upd_ar f : nice (upd_ar f). Proof. intros s. split; [reflexivity|discriminate]. Qed.
Lemma nice_upd_dc f : nice (upd_dc f). Proof. intros s. split; [reflexivity|discriminate]. Qed.
Lemma nice_hload w p : nice (hload w p).
Proof. intros s. unfold hload. cbn [set_dbg ar]. destruct (load_bytes _ _ _); split; (reflexivity || discriminate). Qed.
Lemma nice_hstore w p v : nice (hstore w p v).
Proof. intros s. unfold hstore. cbn [set_dbg ar]. destruct (valid_bytes _ _ _); split; (reflexivity || discriminate). Qed.
Lemma nice_getptr sg o : nice (getptr E sg o).
Proof.
  intros s. unfold getptr. cbn [set_dbg ar]. cbv zeta. destruct (_ <? 272); [|split; (reflexivity || discriminate)].
  destruct (_ && _ && _); split; try (reflexivity || discriminate). intros c s' [= <- <-]. ccode.
Qed.
Lemma nice_getseg c : nice (getseg c).
Proof. intros s. unfold getseg. cbn [set_dbg ar]. destruct (sreg_of _ _); split; (reflexivity || discriminate). Qed.
Lemma nice_chkseg c : nice (chkseg c).
Proof. intros s. unfold chkseg. cbn [set_dbg ar]. destruct (sreg_of _ _); split; (reflexivity || discriminate). Qed.
Lemma nice_setseg c v : nice (setseg c v).
Proof. intros s. unfold setseg. cbn [set_dbg ar]. destruct (sreg_set _ _ _); split; (reflexivity || discriminate). Qed.
Lemma nice_load w p : nice (load w p). Proof. destruct p; [apply nice_getA|apply nice_hload]. Qed.
Lemma nice_store w p v : nice (store w p v). Proof. destruct p; [apply nice_upd_ar|apply nice_hstore]. Qed.
Lemma nice_io_in w p : nice (io_in E w p). Proof. intros s. split; [reflexivity|discriminate]. Qed.
Lemma nice_io_out w p v : nice (io_out w p v). Proof. intros s. split; [reflexivity|discriminate]. Qed.
Lemma nice_hle n : nice (call_hle E n).
Proof.
  intros s. unfold call_hle. cbn [set_dbg ar]. destruct (_ =? 0); split; try (reflexivity || discriminate).
  intros HC g. cbn [omap]. f_equal. apply HC.
Qed.
Ltac nstep :=
  lazymatch goal with
  | |- nice (bind _ _) => apply nice_bind; [|intros ?]
  | |- nice (ret _) => apply nice_ret
  | |- nice (err _) => apply nice_err; ccode
  | |- nice (undef _) => apply nice_undef
  | |- nice (getA _) => apply nice_getA
  | |- nice (getD _) => apply nice_getD
  | |- nice (upd_ar _) => apply nice_upd_ar
  | |- nice (upd_dc _) => apply nice_upd_dc
  | |- nice (hload _ _) => apply nice_hload
  | |- nice (hstore _ _ _) => apply nice_hstore
  | |- nice (getptr _ _ _) => apply nice_getptr
  | |- nice (getseg _) => apply nice_getseg
  | |- nice (chkseg _) => apply nice_chkseg
  | |- nice (setseg _ _) => apply nice_setseg
  | |- nice (load _ _) => apply nice_load
  | |- nice (store _ _ _) => apply nice_store
  | |- nice (io_in _ _ _) => apply nice_io_in
  | |- nice (io_out _ _ _) => apply nice_io_out
  | |- nice (call_hle _ _) => apply nice_hle
  | |- nice (if ?b then _ else _) => destruct b
  | |- nice (let '(_, _) := ?e in _) => destruct e
  | |- nice (match ?e with _ => _ end) => destruct e
  | |- nice (let _ := _ in _) => cbv zeta
  | |- nice (set_gpr _ _ _) => apply nice_upd_ar
  | |- nice (setW _ _) => apply nice_upd_ar
  | |- nice (setL _ _) => apply nice_upd_ar
  | |- nice (setH _ _) => apply nice_upd_ar
  | |- nice (set_ip _) => apply nice_upd_ar
  | |- nice (set_cs _) => apply nice_upd_ar
  | |- nice (set_flags _) => apply nice_upd_ar
  | |- nice (get_gpr _ _) => apply nice_getA
  | |- nice (getW _) => apply nice_getA
  | |- nice (getDw _) => apply nice_getA
  | |- nice (getL _) => apply nice_getA
  | |- nice (getH _) => apply nice_getA
  | |- nice getflags => apply nice_getA
  | |- nice next_ip => unfold next_ip
  | |- nice dont_change_ip => apply nice_upd_dc
  | |- nice opw => unfold opw
  | |- nice (upd_flags _) => unfold upd_flags
  end.
Ltac nwalk := repeat nstep.

Lemma nice_rd w sg o : nice (rd E w sg o). Proof. unfold rd. nwalk. Qed.
Lemma nice_wr w sg o v : nice (wr E w sg o v). Proof. unfold wr. nwalk. Qed.
Ltac nstep1 := lazymatch goal with |- nice (rd _ _ _ _) => apply nice_rd | |- nice (wr _ _ _ _ _) => apply nice_wr | _ => nstep end.
Lemma nice_fetch w : nice (fetch E w). Proof. unfold fetch. repeat nstep1. Qed.
Lemma nice_fetch8s : nice (fetch8s E). Proof. unfold fetch8s. apply nice_bind; [apply nice_fetch|intros; apply nice_ret]. Qed.
Lemma nice_get_modrm : nice (get_modrm E). Proof. unfold get_modrm. apply nice_bind; [apply nice_fetch|intros; apply nice_ret]. Qed.
Lemma nice_push v : nice v -> nice (push E v).
Proof. intros. unfold push. repeat (first [assumption|nstep1]). Qed.
Lemma nice_pop : nice (pop E). Proof. unfold pop. repeat nstep1. Qed.
Ltac nstep2 :=
  lazymatch goal with
  | |- nice (fetch8 _) => apply nice_fetch
  | |- nice (fetch16 _) => apply nice_fetch
  | |- nice (fetch32 _) => apply nice_fetch
  | |- nice (fetch _ _) => apply nice_fetch
  | |- nice (fetch8s _) => apply nice_fetch8s
  | |- nice (get_modrm _) => apply nice_get_modrm
  | |- nice (push _ _) => apply nice_push
  | |- nice (pop _) => apply nice_pop
  | _ => nstep1
  end.
Lemma nice_ea m b : nice (ea_segment m b). Proof. unfold ea_segment. repeat nstep2. Qed.
Lemma nice_dofunc m b d : nice (dofunc E m b d).
Proof. unfold dofunc. apply nice_bind; [apply nice_ea|intros]. apply nice_bind; [|intros; apply nice_ret]. repeat nstep2. Qed.
Lemma nice_dofunc32 m b d : nice (dofunc32 E m b d).
Proof. unfold dofunc32. apply nice_bind; [apply nice_ea|intros]. apply nice_bind; [|intros; apply nice_ret]. unfold sib_index. repeat nstep2. Qed.
Lemma nice_mmm m : nice (get_mmm E m).
Proof.
  unfold get_mmm. apply nice_bind; [apply nice_getD|intros a32].
  destruct a32; repeat (lazymatch goal with |- nice (dofunc _ _ _ _) => apply nice_dofunc | |- nice (dofunc32 _ _ _ _) => apply nice_dofunc32 | _ => nstep2 end).
Qed.
Ltac nstep3 :=
  lazymatch goal with
  | |- nice (get_mmm _ _) => apply nice_mmm
  | _ => nstep2
  end.
Lemma nice_modm m : nice (decode_modm E m). Proof. unfold decode_modm. repeat nstep3. Qed.
Lemma nice_modmx m : nice (decode_modmx E m). Proof. unfold decode_modmx. repeat nstep3. Qed.
Lemma nice_parse : nice (parse_modrm E).
Proof. unfold parse_modrm. apply nice_bind; [apply nice_get_modrm|intros]. apply nice_bind; [apply nice_modm|intros; apply nice_ret]. Qed.
Lemma nice_parsex : nice (parse_modrmx E).
Proof. unfold parse_modrmx. apply nice_bind; [apply nice_get_modrm|intros]. apply nice_bind; [apply nice_modmx|intros; apply nice_ret]. Qed.
Lemma nice_nocheck : nice (get_modrm_nocheck E).
Proof.
  intros s. destruct (nice_get_modrm s) as [A _]. unfold get_modrm_nocheck. split.
  - intros HC g. rewrite (A HC). destruct (get_modrm E s); reflexivity.
  - intros c s'. destruct (get_modrm E s); discriminate.
Qed.
Ltac nstep4 :=
  lazymatch goal with
  | |- nice (decode_modm _ _) => apply nice_modm
  | |- nice (decode_modmx _ _) => apply nice_modmx
  | |- nice (parse_modrm _) => apply nice_parse
  | |- nice (parse_modrmx _) => apply nice_parsex
  | |- nice (get_modrm_nocheck _) => apply nice_nocheck
  | |- nice (alu_vals _ _ _ _ _) => unfold alu_vals
  | |- nice (alu2 _ _ _ _) => unfold alu2
  | |- nice (alu2i _ _ _ _) => unfold alu2i
  | |- nice (alu1 _ _ _) => unfold alu1
  | |- nice (misc_select _ _ _ _) => unfold misc_select
  | |- nice (mul_body _ _) => unfold mul_body
  | |- nice (imul_body _ _) => unfold imul_body
  | |- nice (div_body _ _) => unfold div_body
  | |- nice (idiv_body _ _) => unfold idiv_body
  | |- nice (imul2 _ _ _) => unfold imul2
  | |- nice (do_shift _ _ _ _) => unfold do_shift
  | |- nice (do_dbl _ _ _ _ _) => unfold do_dbl
  | |- nice (parse_farptr _) => unfold parse_farptr
  | |- nice (call_interrupt _ _) => unfold call_interrupt
  | |- nice (jump_if _ _) => unfold jump_if
  | |- nice (loop_with _ _) => unfold loop_with
  | |- nice data_seg => unfold data_seg
  | |- nice (moffs _) => unfold moffs
  | |- nice (copy _ _ _) => unfold copy
  | |- nice (peek8 _) => unfold peek8
  | |- nice (xchg _ _ _) => unfold xchg
  | |- nice (pop_to _ _) => unfold pop_to
  | |- nice (push_imm _ _) => unfold push_imm
  | _ => nstep3
  end.
Lemma nice_enter_loop n : nice (enter_loop E n).
Proof. induction n as [|n IH]; cbn [enter_loop]; [apply nice_ret|]. repeat (first [exact IH|nstep4]). Qed.
Lemma nice_str_body o w a b c d : nice (str_body E o w a b c d). Proof. unfold str_body. destruct o; repeat nstep4. Qed.
Lemma nice_str_loop n : forall o w m a b c d, nice (str_loop E n o w m a b c d).
Proof.
  induction n as [|n IH]; intros; cbn [str_loop]; [apply nice_fuel|].
  repeat (lazymatch goal with |- nice (str_body _ _ _ _ _ _ _) => apply nice_str_body | |- nice (str_loop _ _ _ _ _ _ _ _ _) => apply IH | _ => nstep4 end).
Qed.
Lemma nice_exec1 o p : nice (exec1 E o p).
Proof.
  destruct o; cbn [exec1];
  try (match goal with |- nice ?h => let k := match h with ?f _ _ _ => f | ?f _ _ => f | ?f _ => f end in
       let k := match k with ?f _ => f | _ => k end in unfold k end); repeat nstep4;
  try (apply nice_err; ccode);
  try (unfold x_out_dxa, x_out_dxax, x_cbw, x_cwd, x_ovr_op, x_ovr_addr; repeat nstep4; fail).
  - apply nice_enter_loop.
  - apply nice_str_loop.
Qed.
Lemma nice_exec o p : nice (exec E o p).
Proof.
  destruct o; try (unfold exec; apply nice_exec1).
  unfold exec. apply nice_bind; [apply nice_fetch|intros b]. destruct (ca_op0F b); [apply nice_exec1|apply nice_err; ccode].
Qed.
Lemma nice_once : nice (op_once E).
Proof.
  unfold op_once, op_param. apply nice_bind; [apply nice_fetch|intros b]. destruct (b =? 241); [apply nice_err; ccode|].
  destruct (ca_op b) as [e|]; [|apply nice_err; ccode]. apply nice_bind; [|intros; apply nice_exec].
  repeat nstep4.
Qed.
Lemma nice_loop n : nice (op_loop E n).
Proof.
  induction n as [|n IH]; intros s; cbn [op_loop]; [exact (nice_fuel s)|]. destruct (nice_once s) as [A B]. split.
  - intros HC g. rewrite (A HC). destruct (op_once E s) as [x s1|c s1|r|]; cbn [omap]; auto. destruct (_ =? _); [|reflexivity].
    apply (IH s1), HC.
  - intros c s'. destruct (op_once E s) as [x s1|c1 s1|r|] eqn:H1; try discriminate. destruct (c1 =? E_CONTINUE).
    + intros H. exact (proj2 (IH s1) c s' H).
    + intros [= <- <-]. eapply B, eq_refl.
Qed.
Lemma nice_advance : nice advance_ip. Proof. unfold advance_ip. repeat nstep4. Qed.
Lemma nice_null cs ip : nice (null_hack E cs ip).
Proof.
  unfold null_hack. repeat (lazymatch goal with |- nice (gets lastnull) => apply nice_lastnull | |- nice (modify _) => apply nice_set_lastnull | _ => nstep4 end).
Qed.
Lemma nice_dump n : forall cs i, nice (dump_bytes E n cs i).
Proof. induction n as [|n IH]; intros; cbn [dump_bytes]; [apply nice_ret|]. apply nice_bind; [apply nice_rd|intros; apply IH]. Qed.
Lemma codes_trace cs ip s c s' : trace_dump E cs ip s = Err c s' -> opcode_code c.
Proof.
  unfold trace_dump, bind, gets, getD, gets. destruct (1 <=? dbg s); [|discriminate].
  destruct (_ <? 0); [discriminate|]. apply nice_dump.
Qed.
(** RME_Int_DoOpcode without the final trace dump. *)
Definition do_main : M unit :=
  sip <- getA r_ip ;; scs <- getA r_cs ;;
  upd_dc (fun _ => dec0) ;;;
  n <- gets icount ;;
  if n =? 2147483647 then undef UbCount else
  modify (set_icount (n + 1)) ;;;
  op_loop E 6 ;;;
  advance_ip ;;;
  null_hack E scs sip.
Lemma do_split s : do_opcode E s =
  match do_main s with Ok _ s' => trace_dump E (r_cs (ar s)) (r_ip (ar s)) s' | Err c s' => Err c s' | UB r => UB r | Fuel => Fuel end.
Proof.
  unfold do_opcode, do_main, bind, getA, gets, upd_dc, modify. destruct (_ =? 2147483647); [reflexivity|].
  destruct (op_loop E 6 _); auto. destruct (advance_ip s0); auto.
Qed.
Lemma nice_main : nice do_main.
Proof.
  unfold do_main. repeat (lazymatch goal with
   | |- nice (gets icount) => apply nice_icount | |- nice (modify (set_icount _)) => apply nice_set_icount
   | |- nice (op_loop _ _) => apply nice_loop | |- nice advance_ip => apply nice_advance | |- nice (null_hack _ _ _) => apply nice_null
   | _ => nstep4 end).
Qed.
Lemma nice_callint n : 0 <= n <= 255 -> nice (int_callint E n).
Proof. intros Hn. unfold int_callint. replace ((n <? 0) || (255 <? n)) with false by lia. repeat nstep4. Qed.
Lemma nice_iret : nice (x_iret E). Proof. apply (nice_exec1 OIret 0). Qed.

(** No run of an instruction reports "function returned". *)
Theorem run_one_codes s c s' : run_one E s = Err c s' -> c = E_FCNRET -> r_cs (ar s) = 65535 /\ r_ip (ar s) = 65535.
Proof.
  unfold run_one. destruct ((r_ip (ar s) =? 65535) && (r_cs (ar s) =? 65535)) eqn:H1; [intros _ _; lia|].
  destruct ((r_cs (ar s) =? 47104) && (r_ip (ar s) <? 256)).
  - destruct (call_hle E (r_ip (ar s)) s) as [u s1|c1 s1|r|] eqn:Hh; try discriminate.
    + destruct (x_iret E s1); discriminate.
    + intros [= <- <-] ->. exfalso. pose proof (proj2 (nice_hle _ _) _ _ Hh) as K. revert K. unfold E_FCNRET. ccode.
  - rewrite do_split. destruct (do_main s) as [u s1|c1 s1|r|] eqn:Hd; try discriminate.
    + destruct (trace_dump E _ _ s1) as [u2 s2|c2 s2|r|] eqn:Ht; try discriminate.
      destruct (c2 =? E_DIVERR).
      * intros H ->. exfalso. pose proof (proj2 (nice_callint 0 ltac:(lia) _) _ _ H) as K. revert K. unfold E_FCNRET. ccode.
      * intros [= <- <-] ->. exfalso. pose proof (codes_trace _ _ _ _ _ Ht) as K. revert K. unfold E_FCNRET. ccode.
    + destruct (c1 =? E_DIVERR).
      * intros H ->. exfalso. pose proof (proj2 (nice_callint 0 ltac:(lia) _) _ _ H) as K. revert K. unfold E_FCNRET. ccode.
      * intros [= <- <-] ->. exfalso. pose proof (proj2 (nice_main _) _ _ Hd) as K. revert K. unfold E_FCNRET. ccode.
Qed.
(** RME_RunOne ignores the debug level when the trace dump reads without trouble. *)
Theorem run_one_dbg s g : cb_blind E ->
  (forall s1, do_main s = Ok tt s1 -> forall g', trace_dump E (r_cs (ar s)) (r_ip (ar s)) (set_dbg g' s1) = Ok tt (set_dbg g' s1)) ->
  run_one E (set_dbg g s) = omap (set_dbg g) (run_one E s).
Proof.
  intros HC HT. unfold run_one. cbn [set_dbg ar]. destruct ((r_ip (ar s) =? 65535) && (r_cs (ar s) =? 65535)); [reflexivity|].
  destruct ((r_cs (ar s) =? 47104) && (r_ip (ar s) <? 256)).
  - rewrite (proj1 (nice_hle (r_ip (ar s)) s) HC g). destruct (call_hle E (r_ip (ar s)) s) as [u s1|c1 s1|r|]; cbn [omap]; auto.
    rewrite (proj1 (nice_iret s1) HC g). destruct (x_iret E s1); reflexivity.
  - rewrite !do_split. rewrite (proj1 (nice_main s) HC g). cbn [set_dbg ar]. destruct (do_main s) as [[] s1|c1 s1|r|] eqn:Hd; cbn [omap]; auto.
    + rewrite HT by reflexivity. specialize (HT s1 eq_refl (dbg s1)).
      replace (set_dbg (dbg s1) s1) with s1 in HT by (destruct s1; reflexivity). rewrite HT. reflexivity.
    + destruct (c1 =? E_DIVERR); [|reflexivity]. apply (nice_callint 0 ltac:(lia) s1), HC.
Qed.
End Nice.
