(** Memory access, instruction fetch, ModR/M decoding, stack primitives. *)
From Verif Require Import Base.

(** ** Host memory: byte accesses of 1, 2 or 4 bytes through a host pointer.
    Little endian, no alignment requirement (GNU/x86). *)
Fixpoint load_bytes (n : nat) (h : Z -> option Z) (p : Z) : option Z :=
  match n with
  | O => Some 0
  | S n' =>
    match h p, load_bytes n' h (p + 1) with
    | Some b, Some r => Some (b + 256 * r)
    | _, _ => None
    end
  end.

Fixpoint valid_bytes (n : nat) (h : Z -> option Z) (p : Z) : bool :=
  match n with
  | O => true
  | S n' => match h p with Some _ => valid_bytes n' h (p + 1) | None => false end
  end.

(** The bytes p .. p+n-1 replaced by the little-endian encoding of v. *)
Definition store_bytes (n : nat) (p v : Z) (h : Z -> option Z) : Z -> option Z :=
  fun x => if (p <=? x) && (x <? p + Z.of_nat n)
           then Some ((v / 2 ^ (8 * (x - p))) mod 256)
           else h x.

Definition nbytes (w : Z) : nat := Z.to_nat (w / 8).

(** *(uintW_t* )ptr as an rvalue and as an lvalue. *)
Definition hload (w p : Z) : M Z := fun s =>
  match load_bytes (nbytes w) (hmem (ar s)) p with
  | Some v => Ok v s
  | None => UB UbDeref
  end.
Definition hstore (w p v : Z) : M unit := fun s =>
  if valid_bytes (nbytes w) (hmem (ar s)) p
  then Ok tt (set_ar (a_hmem (store_bytes (nbytes w) p v (hmem (ar s))) (ar s)) s)
  else UB UbDeref.

(** Pointers produced by operand decoding: into the register file (bit position)
    or into host memory. *)
Inductive ptr : Type := PGpr (pos : Z) | PMem (p : Z).

Definition load (w : Z) (p : ptr) : M Z :=
  match p with PGpr pos => get_gpr pos w | PMem h => hload w h end.
Definition store (w : Z) (p : ptr) (v : Z) : M unit :=
  match p with PGpr pos => set_gpr pos w v | PMem h => hstore w h v end.

(** RegB, RegW: rme_internal.h:387-405 (the callers only pass 0..7). *)
Definition regB (n : Z) : ptr := PGpr (if 4 <=? n then 32 * (n - 4) + 8 else 32 * n).
Definition regW (n : Z) : ptr := PGpr (32 * n).

(** Seg(): rme_internal.h:370-385; codes of enum sRegs, rme_internal.h:35-43. *)
Definition S_ES := 0.
Definition S_CS := 1.
Definition S_SS := 2.
Definition S_DS := 3.
Definition S_FS := 4.
Definition S_GS := 5.
Definition sreg_of (c : Z) (a : arch) : option Z :=
  match c with
  | 0 => Some (r_es a) | 1 => Some (r_cs a) | 2 => Some (r_ss a)
  | 3 => Some (r_ds a) | 4 => Some (r_fs a) | 5 => Some (r_gs a)
  | _ => None
  end.
Definition sreg_set (c v : Z) (a : arch) : option arch :=
  match c with
  | 0 => Some (a_es v a) | 1 => Some (a_cs v a) | 2 => Some (a_ss v a)
  | 3 => Some (a_ds v a) | 4 => Some (a_fs v a) | 5 => Some (a_gs v a)
  | _ => None
  end.
(** *Seg(State, c) read / written; c outside 0..5 overruns regnames[] and
    dereferences NULL. *)
Definition getseg (c : Z) : M Z := fun s =>
  match sreg_of c (ar s) with Some v => Ok v s | None => UB UbSegReg end.
Definition setseg (c v : Z) : M unit := fun s =>
  match sreg_set c (wrap 16 v) (ar s) with Some a => Ok tt (set_ar a s) | None => UB UbSegReg end.
(** Seg(State, c) evaluated only for its pointer. *)
Definition chkseg (c : Z) : M unit := fun s =>
  match sreg_of c (ar s) with Some _ => Ok tt s | None => UB UbSegReg end.

Section WithEnv.
Context (E : env).

(** RME_Int_GetPtr: rme_internal.h:277-290.  RME_BLOCK_SIZE = 0x1000, rme.h:51;
    Memory[0x110000/0x1000] has 272 entries, rme.h:170. *)
Definition getptr (seg ofs : Z) : M Z := fun s =>
  let addr := wrap 32 (seg * 16 + ofs) in
  let block := addr / 4096 in
  if block <? 272 then
    if null_check E && negb (zero_null_ok E && (block =? 0)) && (mtab (ar s) block =? 0)
    then Err E_BADMEM s
    else Ok (mtab (ar s) block + addr mod 4096) s
  else UB UbMapIndex.

(** RME_Int_Read8/16/32 and Write8/16/32: rme_internal.h:291-332.  The offset
    parameter is uint16_t. *)
Definition rd (w seg ofs : Z) : M Z :=
  p <- getptr seg (wrap 16 ofs) ;; hload w p.
Definition wr (w seg ofs v : Z) : M unit :=
  p <- getptr seg (wrap 16 ofs) ;; hstore w p v.

(** READ_INSTR8/8S/16/32: rme_internal.h:230-266. *)
Definition fetch (w : Z) : M Z :=
  cs <- getA r_cs ;; ip <- getA r_ip ;; o <- getD d_ipoff ;;
  v <- rd w cs (ip + o) ;;
  upd_dc (fun d => dd_ipoff (d_ipoff d + w / 8) d) ;;;
  ret v.
Definition fetch8 : M Z := fetch 8.
Definition fetch16 : M Z := fetch 16.
Definition fetch32 : M Z := fetch 32.
Definition fetch8s : M Z := v <- fetch8 ;; ret (sgn 8 v).

(** struct ModRM and RME_Int_GetModRM: rme_internal.h:334-347. *)
Record modrm : Type := mkModrm { m_mod : Z; m_rrr : Z; m_mmm : Z }.
Definition modrm_of (b : Z) : modrm := mkModrm (b / 64) ((b / 8) mod 8) (b mod 8).
Definition get_modrm : M modrm := b <- fetch8 ;; ret (modrm_of b).

(** Segment choice at the head of DoFunc and DoFunc32 (rme.c:490-502, 573-585).
    [nd] is bit 3 of the C parameter mmm (set for mod=0); the C switch compares the
    whole value, so with bit 3 set none of the SS cases match. *)
Definition ea_segment (mmm : Z) (nd : bool) : M Z :=
  o <- getD d_seg ;;
  getseg (if o =? -1
          then (if negb nd && ((mmm =? 2) || (mmm =? 3) || (mmm =? 6)) then S_SS else S_DS)
          else o).

(** DoFunc: rme.c:485-558.  [disp] is the int16_t displacement. *)
Definition dofunc (mmm : Z) (nd : bool) (disp : Z) : M (Z * Z) :=
  seg <- ea_segment mmm nd ;;
  addr <- (match mmm with
           | 0 => b <- getW R_BX ;; i <- getW R_SI ;; ret (b + i)
           | 1 => b <- getW R_BX ;; i <- getW R_DI ;; ret (b + i)
           | 2 => b <- getW R_BP ;; i <- getW R_SI ;; ret (b + i)
           | 3 => b <- getW R_BP ;; i <- getW R_DI ;; ret (b + i)
           | 4 => getW R_SI
           | 5 => getW R_DI
           | 6 => if nd then d <- fetch16 ;; ret (wrap 32 (sgn 16 d)) else getW R_BP
           | 7 => getW R_BX
           | _ => err E_BUG
           end) ;;
  ret (seg, if nd then addr else wrap 32 (addr + disp)).

(** The 32-bit register used by DoFunc32's index/base switches (rme.c:610-620, 625-644). *)
Definition sib_index (i : Z) : M Z := if i =? 4 then ret 0 else getDw i.

(** DoFunc32: rme.c:567-679.  [disp] is the int32_t displacement. *)
Definition dofunc32 (mmm : Z) (nd : bool) (disp : Z) : M (Z * Z) :=
  seg <- ea_segment mmm nd ;;
  addr <- (match mmm with
           | 4 =>
             sib <- fetch8 ;;
             i <- sib_index ((sib / 8) mod 8) ;;
             let a := wrap 32 (i * 2 ^ (sib / 64)) in
             (if sib mod 8 =? 5 then
                if nd then fetch32 ;;; ret a
                else b <- getDw R_BP ;; ret (wrap 32 (a + b))
              else b <- getDw (sib mod 8) ;; ret (wrap 32 (a + b)))
           | 5 => if nd then fetch32 else getDw R_BP
           | 0 => getDw R_AX
           | 1 => getDw R_CX
           | 2 => getDw R_DX
           | 3 => getDw R_BX
           | 6 => getDw R_SI
           | 7 => getDw R_DI
           | _ => err E_BUG
           end) ;;
  ret (seg, if nd then addr else wrap 32 (addr + disp)).

(** RME_Int_GetMMM: rme.c:681-739.  [ofs] is uint16_t; DoFunc receives it as
    int16_t, DoFunc32 as int32_t. *)
Definition get_mmm (m : modrm) : M (Z * Z) :=
  a32 <- getD d_addr ;;
  if a32 then
    match m_mod m with
    | 0 => dofunc32 (m_mmm m) true 0
    | 1 => o <- fetch8s ;; dofunc32 (m_mmm m) false (wrap 16 o)
    | 2 => o <- fetch32 ;; dofunc32 (m_mmm m) false (wrap 16 o)
    | _ => err E_BUG
    end
  else
    match m_mod m with
    | 0 => dofunc (m_mmm m) true 0
    | 1 => o <- fetch8s ;; dofunc (m_mmm m) false (sgn 16 o)
    | 2 => o <- fetch16 ;; dofunc (m_mmm m) false (sgn 16 o)
    | _ => err E_BUG
    end.

(** RME_Int_DecodeModM: rme.c:741-756. *)
Definition decode_modm (m : modrm) : M ptr :=
  if m_mod m =? 3 then ret (regB (m_mmm m))
  else so <- get_mmm m ;; p <- getptr (fst so) (snd so) ;; ret (PMem p).

(** RME_Int_DecodeModMX: rme.c:758-778. *)
Definition decode_modmx (m : modrm) : M ptr :=
  if m_mod m =? 3 then ret (regW (m_mmm m))
  else so <- get_mmm m ;;
       if wrap 32 (fst so * 16 + snd so) mod 4096 =? 4095 then err E_BADMEM
       else p <- getptr (fst so) (snd so) ;; ret (PMem p).

(** RME_Int_ParseModRM / ParseModRMX: rme.c:786-824.  Returns (reg, mem); bReverse only
    changes the order of the debug text.  Callers that pass NULL for reg ignore it. *)
Definition parse_modrm : M (ptr * ptr) :=
  m <- get_modrm ;; p <- decode_modm m ;; ret (regB (m_rrr m), p).
Definition parse_modrmx : M (ptr * ptr) :=
  m <- get_modrm ;; p <- decode_modmx m ;; ret (regW (m_rrr m), p).

(** PUSH(v): rme_internal.h:356-360.  The argument expression is evaluated after SP
    has been decremented. *)
Definition push (v : M Z) : M unit :=
  sp <- getW R_SP ;; setW R_SP (sp - 2) ;;;
  ss <- getA r_ss ;; sp' <- getW R_SP ;; x <- v ;; wr 16 ss sp' x.

(** POP(dst): rme_internal.h:361-367; the caller assigns the returned value. *)
Definition pop : M Z :=
  ss <- getA r_ss ;; sp <- getW R_SP ;;
  v <- rd 16 ss sp ;;
  sp' <- getW R_SP ;; setW R_SP (sp' + 2) ;;; ret v.

End WithEnv.
