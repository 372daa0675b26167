(** Words, bit fields, the machine state and the outcome monad. *)
From Coq Require Export ZArith List Bool Lia.
Export ListNotations.
Global Open Scope Z_scope.

(** C narrowing conversion to an unsigned [w]-bit type (models every implicit
    conversion to uint8_t/uint16_t/uint32_t in src/). *)
Definition wrap (w x : Z) : Z := x mod 2 ^ w.

(** C conversion to a signed [w]-bit type: two's complement reading of the low
    [w] bits (int8_t/int16_t/int32_t/int64_t casts in src/; GNU C semantics). *)
Definition sgn (w x : Z) : Z :=
  if wrap w x <? 2 ^ (w - 1) then wrap w x else wrap w x - 2 ^ w.

(** Bit field [pos .. pos+w-1] of an unbounded integer.  The register file
    (rme.h:129-134, union of tGPR[8], rme.h:103-113) is one 256-bit little-endian
    image: AX at bit 0, CX 32, DX 64, BX 96, SP 128, BP 160, SI 192, DI 224; the
    .D/.W/.B.L views are fields of width 32/16/8 at that position and .B.H is the
    8-bit field 8 bits further. *)
Definition getf (pos w g : Z) : Z := (g / 2 ^ pos) mod 2 ^ w.
Definition setf (pos w v g : Z) : Z := g + (wrap w v - getf pos w g) * 2 ^ pos.

(** One host port access (ops_io.h:9-14): width, port, value. *)
Inductive ioev : Type :=
| IoIn  (w port v : Z)
| IoOut (w port v : Z).

(** Architectural part of tRME_State (rme.h:125-182) plus the host memory the map
    points into and the log of host port accesses.
    [mtab b] is State->Memory[b] as a host address (0 = NULL);
    [hle n] is State->HLECallbacks[n] as a handle (0 = NULL);
    [hmem x] is the host byte at address x, None if dereferencing it is not allowed.
    Simplification: guest blocks are assumed not to overlap the state structure. *)
Record arch : Type := mkArch {
  gprs : Z;
  r_ss : Z; r_ds : Z; r_es : Z; r_fs : Z; r_gs : Z;
  r_cs : Z; r_ip : Z; r_flags : Z;
  cpu : Z;
  mtab : Z -> Z;
  hle : Z -> Z;
  hmem : Z -> option Z;
  iolog : list ioev
}.

(** Decoder scratch (rme.h:186-201).  DebugString is modelled in Trace.v. *)
Record dec : Type := mkDec {
  d_seg : Z;        (* OverrideSegment, -1 = unset *)
  d_rep : Z;        (* RepeatType: 0, 0xF2, 0xF3 *)
  d_op : bool;      (* bOverrideOperand *)
  d_addr : bool;    (* bOverrideAddress *)
  d_noip : bool;    (* bDontChangeIP *)
  d_ipoff : Z       (* IPOffset *)
}.

(** tRME_State (rme.h:125-203). *)
Record st : Type := mkSt {
  ar : arch;
  dc : dec;
  dbg : Z;          (* DebugLevel *)
  icount : Z;       (* InstrNum *)
  lastnull : bool   (* bWasLastOperationNull *)
}.

(** Error codes, rme.h:67-83. *)
Definition E_OK := 0.
Definition E_CONTINUE := 1.
Definition E_INVAL := 2.
Definition E_BADMEM := 3.
Definition E_UNDEF := 4.
Definition E_DIVERR := 5.
Definition E_BUG := 6.
Definition E_BREAK := 7.
Definition E_HALT := 8.
Definition E_FCNRET := 9.

(** Flag bit numbers and masks, rme.h:90-98. *)
Definition M_CF := 1.
Definition M_PF := 4.
Definition M_AF := 16.
Definition M_ZF := 64.
Definition M_SF := 128.
Definition M_TF := 256.
Definition M_IF := 512.
Definition M_DF := 1024.
Definition M_OF := 2048.

(** Why an execution of the C code is undefined. *)
Inductive ub : Type :=
| UbMapIndex    (* State->Memory[block] with block >= 272 *)
| UbDeref       (* access through a NULL or otherwise invalid host pointer *)
| UbShift       (* shift count negative or not less than the promoted width *)
| UbMulOverflow (* signed int multiplication overflow *)
| UbDivOverflow (* INT_MIN / -1 *)
| UbUninit      (* use of the uninitialised ModRM structure *)
| UbSegReg      (* Seg() called with 6 or 7: regnames[] overrun, NULL result *)
| UbCpuType     (* masks[CPUType] out of range *)
| UbCount.      (* InstrNum++ overflows int *)

(** Result of running a handler: normal return 0 with a value, an error return
    (any non-zero code), undefined behaviour, or exhausted model fuel. *)
Inductive out (X : Type) : Type :=
| Ok (x : X) (s : st)
| Err (c : Z) (s : st)
| UB (r : ub)
| Fuel.
Arguments Ok {X}. Arguments Err {X}. Arguments UB {X}. Arguments Fuel {X}.

Definition M (X : Type) : Type := st -> out X.

(** Sequencing: "r = f(); if(r) return r; ..." *)
Definition ret {X} (x : X) : M X := fun s => Ok x s.
Definition bind {X Y} (m : M X) (f : X -> M Y) : M Y := fun s =>
  match m s with
  | Ok x s' => f x s'
  | Err c s' => Err c s'
  | UB r => UB r
  | Fuel => Fuel
  end.
Definition err {X} (c : Z) : M X := fun s => Err c s.
Definition undef {X} (r : ub) : M X := fun _ => UB r.
Definition gets {X} (f : st -> X) : M X := fun s => Ok (f s) s.
Definition modify (f : st -> st) : M unit := fun s => Ok tt (f s).

Declare Scope m_scope.
Delimit Scope m_scope with m.
Notation "x <- m ;; f" := (bind m (fun x => f))
  (at level 100, m at next level, right associativity) : m_scope.
Notation "m ;;; f" := (bind m (fun _ => f))
  (at level 100, right associativity) : m_scope.
Global Open Scope m_scope.

(** Build configuration and host environment.
    [null_check]: RME_DO_NULL_CHECK as seen by rme_internal.h:281 (false in the shipped
    build: rme.c:27 defines it too late); [zero_null_ok]: RME_ALLOW_ZERO_TO_BE_NULL;
    [port_in log w port]: what inb/inw/inl return after the history [log];
    [callback h n s]: State->HLECallbacks[n](State, n) for the handle h. *)
Record env : Type := mkEnv {
  null_check : bool;
  zero_null_ok : bool;
  port_in : list ioev -> Z -> Z -> Z;
  callback : Z -> Z -> st -> st
}.

(** ** Field updates *)
Definition set_ar (a : arch) (s : st) : st :=
  mkSt a (dc s) (dbg s) (icount s) (lastnull s).
Definition set_dc (d : dec) (s : st) : st :=
  mkSt (ar s) d (dbg s) (icount s) (lastnull s).
Definition set_dbg (v : Z) (s : st) : st :=
  mkSt (ar s) (dc s) v (icount s) (lastnull s).
Definition set_icount (v : Z) (s : st) : st :=
  mkSt (ar s) (dc s) (dbg s) v (lastnull s).
Definition set_lastnull (v : bool) (s : st) : st :=
  mkSt (ar s) (dc s) (dbg s) (icount s) v.

Definition a_gprs (v : Z) (a : arch) : arch :=
  mkArch v (r_ss a) (r_ds a) (r_es a) (r_fs a) (r_gs a) (r_cs a) (r_ip a) (r_flags a)
         (cpu a) (mtab a) (hle a) (hmem a) (iolog a).
Definition a_ss (v : Z) (a : arch) : arch :=
  mkArch (gprs a) v (r_ds a) (r_es a) (r_fs a) (r_gs a) (r_cs a) (r_ip a) (r_flags a)
         (cpu a) (mtab a) (hle a) (hmem a) (iolog a).
Definition a_ds (v : Z) (a : arch) : arch :=
  mkArch (gprs a) (r_ss a) v (r_es a) (r_fs a) (r_gs a) (r_cs a) (r_ip a) (r_flags a)
         (cpu a) (mtab a) (hle a) (hmem a) (iolog a).
Definition a_es (v : Z) (a : arch) : arch :=
  mkArch (gprs a) (r_ss a) (r_ds a) v (r_fs a) (r_gs a) (r_cs a) (r_ip a) (r_flags a)
         (cpu a) (mtab a) (hle a) (hmem a) (iolog a).
Definition a_fs (v : Z) (a : arch) : arch :=
  mkArch (gprs a) (r_ss a) (r_ds a) (r_es a) v (r_gs a) (r_cs a) (r_ip a) (r_flags a)
         (cpu a) (mtab a) (hle a) (hmem a) (iolog a).
Definition a_gs (v : Z) (a : arch) : arch :=
  mkArch (gprs a) (r_ss a) (r_ds a) (r_es a) (r_fs a) v (r_cs a) (r_ip a) (r_flags a)
         (cpu a) (mtab a) (hle a) (hmem a) (iolog a).
Definition a_cs (v : Z) (a : arch) : arch :=
  mkArch (gprs a) (r_ss a) (r_ds a) (r_es a) (r_fs a) (r_gs a) v (r_ip a) (r_flags a)
         (cpu a) (mtab a) (hle a) (hmem a) (iolog a).
Definition a_ip (v : Z) (a : arch) : arch :=
  mkArch (gprs a) (r_ss a) (r_ds a) (r_es a) (r_fs a) (r_gs a) (r_cs a) v (r_flags a)
         (cpu a) (mtab a) (hle a) (hmem a) (iolog a).
Definition a_flags (v : Z) (a : arch) : arch :=
  mkArch (gprs a) (r_ss a) (r_ds a) (r_es a) (r_fs a) (r_gs a) (r_cs a) (r_ip a) v
         (cpu a) (mtab a) (hle a) (hmem a) (iolog a).
Definition a_hmem (v : Z -> option Z) (a : arch) : arch :=
  mkArch (gprs a) (r_ss a) (r_ds a) (r_es a) (r_fs a) (r_gs a) (r_cs a) (r_ip a) (r_flags a)
         (cpu a) (mtab a) (hle a) v (iolog a).
Definition a_iolog (v : list ioev) (a : arch) : arch :=
  mkArch (gprs a) (r_ss a) (r_ds a) (r_es a) (r_fs a) (r_gs a) (r_cs a) (r_ip a) (r_flags a)
         (cpu a) (mtab a) (hle a) (hmem a) v.

Definition dd_seg (v : Z) (d : dec) : dec := mkDec v (d_rep d) (d_op d) (d_addr d) (d_noip d) (d_ipoff d).
Definition dd_rep (v : Z) (d : dec) : dec := mkDec (d_seg d) v (d_op d) (d_addr d) (d_noip d) (d_ipoff d).
Definition dd_op (v : bool) (d : dec) : dec := mkDec (d_seg d) (d_rep d) v (d_addr d) (d_noip d) (d_ipoff d).
Definition dd_addr (v : bool) (d : dec) : dec := mkDec (d_seg d) (d_rep d) (d_op d) v (d_noip d) (d_ipoff d).
Definition dd_noip (v : bool) (d : dec) : dec := mkDec (d_seg d) (d_rep d) (d_op d) (d_addr d) v (d_ipoff d).
Definition dd_ipoff (v : Z) (d : dec) : dec := mkDec (d_seg d) (d_rep d) (d_op d) (d_addr d) (d_noip d) v.

(** State-level actions; assignments to 16-bit struct members narrow. *)
Definition upd_ar (f : arch -> arch) : M unit := modify (fun s => set_ar (f (ar s)) s).
Definition upd_dc (f : dec -> dec) : M unit := modify (fun s => set_dc (f (dc s)) s).
Definition getA {X} (f : arch -> X) : M X := gets (fun s => f (ar s)).
Definition getD {X} (f : dec -> X) : M X := gets (fun s => f (dc s)).
Definition set_ip (v : Z) : M unit := upd_ar (a_ip (wrap 16 v)).
Definition set_cs (v : Z) : M unit := upd_ar (a_cs (wrap 16 v)).
Definition set_flags (v : Z) : M unit := upd_ar (a_flags v).

(** Register file positions (rme.h:129-134 and enum gpRegsX, rme_internal.h:29-33). *)
Definition R_AX := 0.
Definition R_CX := 1.
Definition R_DX := 2.
Definition R_BX := 3.
Definition R_SP := 4.
Definition R_BP := 5.
Definition R_SI := 6.
Definition R_DI := 7.
Definition get_gpr (pos w : Z) : M Z := getA (fun a => getf pos w (gprs a)).
Definition set_gpr (pos w v : Z) : M unit := upd_ar (fun a => a_gprs (setf pos w v (gprs a)) a).
Definition getW (r : Z) : M Z := get_gpr (32 * r) 16.       (* State->xX.W *)
Definition getDw (r : Z) : M Z := get_gpr (32 * r) 32.      (* State->xX.D *)
Definition setW (r v : Z) : M unit := set_gpr (32 * r) 16 v.
Definition setDw (r v : Z) : M unit := set_gpr (32 * r) 32 v.
Definition getL (r : Z) : M Z := get_gpr (32 * r) 8.        (* State->xX.B.L *)
Definition setL (r v : Z) : M unit := set_gpr (32 * r) 8 v.
Definition getH (r : Z) : M Z := get_gpr (32 * r + 8) 8.    (* State->xX.B.H *)
Definition setH (r v : Z) : M unit := set_gpr (32 * r + 8) 8 v.

(** Flag helpers: State->Flags &= ~mask;  State->Flags |= b ? mask : 0. *)
Definition fclear (mask f : Z) : Z := Z.ldiff f mask.
Definition fset (b : bool) (mask f : Z) : Z := if b then Z.lor f mask else f.
Definition ftest (mask f : Z) : bool := negb (Z.land f mask =? 0).
