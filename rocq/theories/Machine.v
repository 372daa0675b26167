(** RME_Int_DoOpcode, RME_RunOne, RME_Call, RME_CallInt, RME_CreateState (src/rme.c). *)
From Verif Require Import Base Cpu Alu Ops.

(** RME_CreateState: rme.c:53-68.  [debug] is the compile-time constant DEBUG; calloc gives
    an all-zero structure (failure of calloc is not modelled).  [h] is the host memory. *)
Definition create_state (debug : Z) (h : Z -> option Z) : st :=
  mkSt (mkArch 0 0 0 0 0 0 61440 65520 2 0 (fun _ => 0) (fun _ => 0) h [])
       (mkDec 0 0 false false false 0) debug 0 false.

Section WithEnv.
Context (E : env).

(** The parameter passed to the handler, rme.c:239-253: modrm.rrr (peeked) when the entry
    has ModRMNames, Arg otherwise. *)
Definition op_param (e : entry) : M Z :=
  if e_names e then
    m <- get_modrm_nocheck E ;;
    upd_dc (fun d => dd_ipoff (d_ipoff d - 1) d) ;;;
    ret (m_rrr m)
  else ret (e_arg e).

(** One pass of the do loop, rme.c:224-253. *)
Definition op_once : M unit :=
  b <- fetch8 E ;;
  if b =? 241 then err E_BREAK else
  match ca_op b with
  | None => err E_UNDEF
  | Some e => p <- op_param e ;; exec E (e_op e) p
  end.

(** The do/while loop, rme.c:224-254.  Each prefix kind is accepted once, so more than five
    passes never happen (C04); [Fuel] is the unreachable outcome. *)
Fixpoint op_loop (fuel : nat) : M unit := fun s =>
  match fuel with
  | O => Fuel
  | S fuel' =>
    match op_once s with
    | Err c s' => if c =? E_CONTINUE then op_loop fuel' s' else Err c s'
    | x => x
    end
  end.

(** The 00 00 detector, rme.c:274-292; [scs], [sip] are startCS and startIP. *)
Definition null_hack (scs sip : Z) : M unit :=
  o <- getD d_ipoff ;;
  if o =? 2 then
    b1 <- rd E 8 scs sip ;;
    b2 <- rd E 8 scs (sip + 1) ;;
    if (b1 =? 0) && (b2 =? 0) then
      l <- gets lastnull ;;
      if l then err E_BREAK else modify (set_lastnull true)
    else modify (set_lastnull false)
  else modify (set_lastnull false).

(** The byte dump of the trace, rme.c:296-309: reads every instruction byte again. *)
Fixpoint dump_bytes (n : nat) (scs i : Z) : M unit :=
  match n with
  | O => ret tt
  | S n' => rd E 8 scs i ;;; dump_bytes n' scs (wrap 16 (i + 1))
  end.
(** while(j--) with a negative j runs until int underflow. *)
Definition trace_dump (scs sip : Z) : M unit :=
  g <- gets dbg ;;
  if 1 <=? g then
    o <- getD d_ipoff ;;
    if o <? 0 then undef UbCount else dump_bytes (Z.to_nat o) scs sip
  else ret tt.

(** Decoder reset, rme.c:210-217. *)
Definition dec0 : dec := mkDec (-1) 0 false false false 0.

(** if( !bDontChangeIP ) IP += IPOffset;  rme.c:270-271. *)
Definition advance_ip : M unit :=
  n <- getD d_noip ;;
  if n then ret tt else
  ip <- getA r_ip ;; o <- getD d_ipoff ;; set_ip (ip + o).

(** RME_Int_DoOpcode: rme.c:201-310.  (The RepeatType check of 259-267 only prints.) *)
Definition do_opcode : M unit :=
  sip <- getA r_ip ;; scs <- getA r_cs ;;
  upd_dc (fun _ => dec0) ;;;
  n <- gets icount ;;
  if n =? 2147483647 then undef UbCount else
  modify (set_icount (n + 1)) ;;;
  op_loop 6 ;;;
  advance_ip ;;;
  null_hack scs sip ;;;
  trace_dump scs sip.

(** RME_int_CallInt: rme.c:103-126.  State->IP is written before the CS half is read. *)
Definition int_callint (num : Z) : M unit :=
  if (num <? 0) || (255 <? num) then err E_INVAL else
  push E (getflags) ;;; push E (getA r_cs) ;;; push E (getA r_ip) ;;;
  f <- getflags ;; set_flags (fclear (M_IF + M_TF) f) ;;;
  i <- rd E 16 0 (num * 4) ;; set_ip i ;;;
  c <- rd E 16 0 (num * 4 + 2) ;; set_cs c.

(** RME_RunOne: rme.c:163-196.  RME_MAGIC_CS:IP = FFFF:FFFF (rme.h:56-60), RME_HLE_CS =
    0xB800 (rme.h:62).  In the HLE branch the result of the IRET handler is ignored and
    State->IP is re-read for the second argument only (the callback gets its own number). *)
Definition run_one : M unit := fun s =>
  let ip := r_ip (ar s) in let cs := r_cs (ar s) in
  if (ip =? 65535) && (cs =? 65535) then Err E_FCNRET s
  else if (cs =? 47104) && (ip <? 256) then
    match call_hle E ip s with
    | Ok _ s1 =>
      match x_iret E s1 with
      | Ok _ s2 | Err _ s2 => Ok tt s2
      | UB r => UB r
      | Fuel => Fuel
      end
    | x => x
    end
  else
    match do_opcode s with
    | Err c s' => if c =? E_DIVERR then int_callint 0 s' else Err c s'
    | x => x
    end.

(** RME_Call: rme.c:147-158; [fuel] bounds the number of RME_RunOne calls. *)
Fixpoint rme_call (fuel : nat) : M unit := fun s =>
  match fuel with
  | O => Fuel
  | S fuel' =>
    match run_one s with
    | Ok _ s' => rme_call fuel' s'
    | Err c s' => if c =? E_FCNRET then Ok tt s' else Err c s'
    | x => x
    end
  end.

(** RME_CallInt: rme.c:131-142. *)
Definition call_int (fuel : nat) (num : Z) : M unit :=
  set_cs 65535 ;;; set_ip 65535 ;;; int_callint num ;;; rme_call fuel.

End WithEnv.
