(** Vocabulary for whole-run properties: what no instruction may do. *)
From Verif Require Import Base Cpu Alu Ops Machine Spec.

(** A well-formed emulator state: registers and memory bytes within their types, decoder scratch
    fields within theirs.  (True of a fresh state, see [fresh_wf].) *)
Record wf_state (s : st) : Prop := mkWfState {
  ws_regs : wf_regs (ar s);
  ws_bytes : forall x b, hmem (ar s) x = Some b -> 0 <= b < 256;
  ws_off : 0 <= d_ipoff (dc s);
  ws_seg : d_seg (dc s) = -1 \/ 0 <= d_seg (dc s) < 6;
  ws_rep : d_rep (dc s) = 0 \/ d_rep (dc s) = 242 \/ d_rep (dc s) = 243
}.
(** Host configuration: memory map, callback table, CPU type, debug level, accessible host bytes. *)
Record same_config (s s' : st) : Prop := mkSameConfig {
  sc_map : mtab (ar s') = mtab (ar s);
  sc_hle : hle (ar s') = hle (ar s);
  sc_cpu : cpu (ar s') = cpu (ar s);
  sc_dbg : dbg s' = dbg s;
  sc_dom : forall x, hmem (ar s') x = None <-> hmem (ar s) x = None
}.
(** Host byte x belongs to a block installed in the map. *)
Definition in_block (mt : Z -> Z) (x : Z) : Prop := exists b, 0 <= b < 272 /\ mt b <= x < mt b + 4096.
(** ... or is one of the three bytes following such a block. *)
Definition near_block (mt : Z -> Z) (x : Z) : Prop := exists b, 0 <= b < 272 /\ mt b <= x < mt b + 4099.
(** CS:IP is the magic return address / an HLE entry point. *)
Definition magic (a : arch) : Prop := r_cs a = 65535 /\ r_ip a = 65535.
Definition hle_entry_pc (a : arch) : Prop := r_cs a = 47104 /\ r_ip a < 256.
(** The effect of one or more instructions. *)
Record guest_effect (s s' : st) : Prop := mkEffect {
  ge_wf : wf_state s';
  ge_config : same_config s s';
  ge_mem : forall x, hmem (ar s') x <> hmem (ar s) x -> near_block (mtab (ar s)) x;
  ge_io : exists l, iolog (ar s') = iolog (ar s) ++ l
}.
(** Host callbacks that behave like guest code towards the rest of the state and leave the
    emulator's bookkeeping alone. *)
Definition polite (E : env) : Prop := forall h n s, wf_state s ->
  guest_effect s (callback E h n s) /\ icount (callback E h n s) = icount s /\
  lastnull (callback E h n s) = lastnull s /\ dc (callback E h n s) = dc s.

(** ** Classes of opcodes, by their bytes (one-byte map; second byte after 0F) *)
Definition ctl1 : list Z :=
  [112;113;114;115;116;117;118;119;120;121;122;123;124;125;126;127;   (* Jcc *)
   154; 194; 195; 202; 203; 204; 205; 206; 207;                       (* CALLF RET* INT* IRET *)
   224; 225; 226; 227; 232; 233; 234; 235; 255].                      (* LOOP* JCXZ CALL JMP* grp5 *)
Definition ctl0F : list Z := [128;129;130;131;132;133;134;135;136;137;138;139;140;141;142;143].
Definition io1 : list Z := [108;109;110;111; 228;229;230;231; 236;237;238;239]. (* INS OUTS IN OUT *)
(** May redirect control (FF includes INC/DEC/PUSH r/m, which do not). *)
Definition may_jump (bs : list Z) : Prop :=
  match bs with b :: t => In b ctl1 \/ (b = 15 /\ match t with b2 :: _ => In b2 ctl0F | [] => False end) | [] => False end.
Definition may_io (bs : list Z) : Prop := match bs with b :: _ => In b io1 | [] => False end.
(** 8E: MOV segment register, which can load CS. *)
Definition loads_sreg (bs : list Z) : Prop := match bs with b :: _ => b = 142 | [] => False end.
(** F6, F7 (DIV, IDIV among others) and D4 (AAM): may raise a divide fault. *)
Definition may_divfault (bs : list Z) : Prop := match bs with b :: _ => In b [212; 246; 247] | [] => False end.
(** CC, CD, CE: may run a host callback. *)
Definition may_callback (bs : list Z) : Prop := match bs with b :: _ => In b [204; 205; 206] | [] => False end.
(** One-byte opcodes that are not implemented: BOUND, ARPL, 82, FWAIT, D6, the FPU escapes, LOCK. *)
Definition undefined1 : list Z := [98; 99; 130; 155; 214; 216; 217; 218; 219; 220; 221; 222; 223; 240].
(** Two-byte opcodes 0F xx that are: Jcc near, PUSH/POP FS/GS, SHLD, SHRD, IMUL, LSS/LFS/LGS, MOVZX, BTx, BSF. *)
Definition defined0F : list Z :=
  [128; 129; 130; 131; 132; 133; 134; 135; 136; 137; 138; 139; 140; 141; 142; 143; 160; 161; 164; 165; 168; 169;
   172; 173; 175; 178; 180; 181; 182; 183; 186; 188].
Definition undefined_opcode (bs : list Z) : Prop :=
  match bs with b :: t => In b undefined1 \/ (b = 15 /\ match t with b2 :: _ => ~ In b2 defined0F | [] => False end) | [] => False end.
Definition prefix_byte (b : Z) : Prop := In b [38; 46; 54; 62; 100; 101; 102; 103; 242; 243].
(** The opcode byte (not a prefix, not the padding byte F1), together with the second opcode byte or
    ModR/M byte if it has one. *)
Definition opcode_read (bs : list Z) : Prop :=
  match bs with
  | [] => False
  | b :: t => ~ prefix_byte b /\ b <> 241 /\ (t = [] -> b <> 15 /\ has_modrm [b] = None)
  end.
(** Which instructions can run into which operation that is undefined in C. *)
Definition may_ub (bs : list Z) (r : ub) : Prop :=
  match r with
  | UbMapIndex | UbDeref => has_modrm bs <> None               (* address of a memory operand *)
  | UbShift => match bs with
               | b :: t => In b [192; 193; 208; 209; 210; 211] \/
                           (b = 15 /\ match t with b2 :: _ => In b2 [164; 165; 172; 173] | [] => False end)
               | [] => False end                               (* shifts; SHLD, SHRD *)
  | UbMulOverflow => match bs with
               | b :: t => In b [105; 107] \/ (b = 15 /\ match t with b2 :: _ => b2 = 175 | [] => False end)
               | [] => False end                               (* IMUL with two or three operands *)
  | UbDivOverflow => match bs with b :: _ => b = 247 | [] => False end   (* F7: IDIV *)
  | UbSegReg => match bs with b :: _ => In b [140; 142] | [] => False end (* MOV with segment register 6, 7 *)
  | UbUninit | UbCpuType | UbCount => False
  end.

(** ** Host memory a guest may touch (C49) *)
(** Host bytes of an installed block and the three bytes after it (an access that starts in the
    block may be up to four bytes wide).  In a build with the NULL check an entry of 0 is not a
    block, except block 0 if zero is allowed to be NULL. *)
Definition accessible (E : env) (mt : Z -> Z) (x : Z) : Prop := exists b, 0 <= b < 272 /\
  (null_check E = true -> mt b <> 0 \/ (zero_null_ok E = true /\ b = 0)) /\ mt b <= x < mt b + 4099.
(** The state with another host memory. *)
Definition with_host (h : Z -> option Z) (s : st) : st := set_ar (a_hmem h (ar s)) s.
(** Same map and same state, except for the content of host memory that is not accessible. *)
Definition same_inside (E : env) (mt : Z -> Z) (s1 s2 : st) : Prop :=
  mtab (ar s1) = mt /\ s2 = with_host (hmem (ar s2)) s1 /\ forall x, accessible E mt x -> hmem (ar s1) x = hmem (ar s2) x.
(** Callbacks that themselves only use accessible memory (and do not unmap any). *)
Definition cb_inside (E : env) : Prop := forall h n mt s1 s2, same_inside E mt s1 s2 ->
  same_inside E mt (callback E h n s1) (callback E h n s2) /\
  (forall x, ~ accessible E mt x -> hmem (ar (callback E h n s1)) x = hmem (ar s1) x /\ hmem (ar (callback E h n s2)) x = hmem (ar s2) x) /\
  (forall x, hmem (ar s1) x <> None -> hmem (ar (callback E h n s1)) x <> None).
(** Two runs end alike: same outcome, same error code, same state but for inaccessible memory,
    which neither of them has changed. *)
Definition end_alike (E : env) (mt : Z -> Z) (h1 h2 : Z -> option Z) (s1 s2 : st) : Prop := same_inside E mt s1 s2 /\
  forall x, ~ accessible E mt x -> hmem (ar s1) x = h1 x /\ hmem (ar s2) x = h2 x.
Definition alike {X} (E : env) (mt : Z -> Z) (h1 h2 : Z -> option Z) (o1 o2 : out X) : Prop :=
  match o1, o2 with
  | Ok x s1, Ok y s2 => x = y /\ end_alike E mt h1 h2 s1 s2
  | Err c s1, Err d s2 => c = d /\ end_alike E mt h1 h2 s1 s2
  | UB r, UB r' => r = r'
  | Fuel, Fuel => True
  | _, _ => False
  end.
