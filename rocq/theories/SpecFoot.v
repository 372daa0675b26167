(** Specification vocabulary: which opcodes can change what, and which refused instruction has effects. *)
From Verif Require Import Base Spec SpecRun SpecTop SpecCodes.

(** Host callbacks that do not touch the block map. *)
Definition keeps_map (E : env) : Prop := forall h n s, mtab (ar (callback E h n s)) = mtab (ar s).
(** At CS:IP there are prefixes and then bytes b, b2 that P holds of. *)
Definition opcode2_at (a : arch) (P : Z -> Z -> Prop) : Prop :=
  exists k, 0 <= k /\ (forall i, 0 <= i < k -> prefix_byte (ipbyte a i)) /\ P (ipbyte a k) (ipbyte a (k + 1)).
(** One-byte opcode in l, or 0F and second byte in l0F. *)
Definition listed (l l0F : list Z) (b b2 : Z) : Prop := In b l \/ (b = 0x0F /\ In b2 l0F).
(** ENTER with the operand size prefix and nesting level 2 or more. *)
Definition wide_enter (a : arch) : Prop :=
  exists k, 0 <= k /\ (forall i, 0 <= i < k -> prefix_byte (ipbyte a i)) /\ (exists i, 0 <= i < k /\ ipbyte a i = 0x66) /\
  ipbyte a k = 0xC8 /\ 2 <= ipbyte a (k + 3) mod 32.

(** INT3, INT n, INTO: they may call the host. *)
Definition ints : list Z := [0xCC; 0xCD; 0xCE].
(** Opcodes with a divide fault (AAM, DIV, IDIV), which pushes an interrupt frame. *)
Definition faulting : list Z := [0xD4; 0xF6; 0xF7].
(** Pushes onto the stack. *)
Definition pushing : list Z :=
  [0x06; 0x0E; 0x16; 0x1E; 0x50; 0x51; 0x52; 0x53; 0x54; 0x55; 0x56; 0x57; 0x60; 0x68; 0x6A; 0x9A; 0x9C; 0xC8; 0xE8].
Definition popping : list Z :=
  [0x07; 0x17; 0x1F; 0x58; 0x59; 0x5A; 0x5B; 0x5C; 0x5D; 0x5E; 0x5F; 0x61; 0x8F; 0x9D; 0xC2; 0xC3; 0xC9; 0xCA; 0xCB; 0xCF].
(** Destination is the r/m operand: register or memory. *)
Definition rm_dest : list Z :=
  [0x00; 0x01; 0x08; 0x09; 0x10; 0x11; 0x18; 0x19; 0x20; 0x21; 0x28; 0x29; 0x30; 0x31; 0x80; 0x81; 0x83; 0x86; 0x87; 0x88; 0x89; 0x8C; 0x8F;
   0xC0; 0xC1; 0xC6; 0xC7; 0xD0; 0xD1; 0xD2; 0xD3; 0xF6; 0xF7; 0xFE; 0xFF].
Definition rm_dest0F : list Z := [0xA4; 0xA5; 0xAC; 0xAD].
(** Destination is the reg field of ModR/M. *)
Definition reg_dest : list Z :=
  [0x02; 0x03; 0x0A; 0x0B; 0x12; 0x13; 0x1A; 0x1B; 0x22; 0x23; 0x2A; 0x2B; 0x32; 0x33; 0x69; 0x6B; 0x8A; 0x8B; 0x8D; 0xC4; 0xC5].
Definition reg_dest0F : list Z := [0xAF; 0xB2; 0xB4; 0xB5; 0xB6; 0xB7; 0xBC].

(** Memory: r/m destinations, pushes, MOV moffs, MOVS STOS INS. *)
Definition changes_memory : Z -> Z -> Prop :=
  listed (rm_dest ++ pushing ++ faulting ++ ints ++ [0xA2; 0xA3; 0xA4; 0xA5; 0xAA; 0xAB; 0x6C; 0x6D]) (rm_dest0F ++ [0xA0; 0xA8]).
(** FLAGS. *)
Definition changes_flags : Z -> Z -> Prop :=
  listed ([0x00; 0x01; 0x02; 0x03; 0x04; 0x05; 0x08; 0x09; 0x0A; 0x0B; 0x0C; 0x0D; 0x10; 0x11; 0x12; 0x13; 0x14; 0x15; 0x18; 0x19; 0x1A; 0x1B; 0x1C; 0x1D;
           0x20; 0x21; 0x22; 0x23; 0x24; 0x25; 0x27; 0x28; 0x29; 0x2A; 0x2B; 0x2C; 0x2D; 0x2F; 0x30; 0x31; 0x32; 0x33; 0x34; 0x35; 0x37;
           0x38; 0x39; 0x3A; 0x3B; 0x3C; 0x3D; 0x3F;
           0x40; 0x41; 0x42; 0x43; 0x44; 0x45; 0x46; 0x47; 0x48; 0x49; 0x4A; 0x4B; 0x4C; 0x4D; 0x4E; 0x4F;
           0x69; 0x6B; 0x80; 0x81; 0x83; 0x84; 0x85; 0x9D; 0x9E; 0xA6; 0xA7; 0xA8; 0xA9; 0xAE; 0xAF;
           0xC0; 0xC1; 0xCF; 0xD0; 0xD1; 0xD2; 0xD3; 0xD4; 0xD5; 0xF5; 0xF6; 0xF7; 0xF8; 0xF9; 0xFA; 0xFB; 0xFC; 0xFD; 0xFE; 0xFF] ++ ints)
         [0xA4; 0xA5; 0xAC; 0xAD; 0xAF; 0xBC].
(** Segment registers, by their number ES CS SS DS FS GS = 0..5. *)
Definition changes_segment (c : Z) : Z -> Z -> Prop :=
  match c with
  | 0 => listed ([0x07; 0x8E; 0xC4] ++ ints) []
  | 1 => listed ([0x8E; 0x9A; 0xCA; 0xCB; 0xCF; 0xEA; 0xFF] ++ faulting ++ ints) []
  | 2 => listed ([0x17; 0x8E] ++ ints) [0xB2]
  | 3 => listed ([0x1F; 0x8E; 0xC5] ++ ints) []
  | 4 => listed ([0x8E] ++ ints) [0xA1; 0xB4]
  | _ => listed ([0x8E] ++ ints) [0xA9; 0xB5]
  end.
(** General registers AX CX DX BX SP BP SI DI = 0..7: opcodes that name a register in ModR/M, and for
    each register the opcodes that have it as an implied or encoded destination. *)
Definition encoded (r : Z) : list Z := [0x40 + r; 0x48 + r; 0x58 + r; 0xB8 + r] ++ (if r =? 0 then [] else [0x90 + r]) ++ (if r <? 4 then [0xB0 + r; 0xB4 + r] else []).
Definition implied (r : Z) : list Z :=
  match r with
  | 0 => [0x04; 0x05; 0x0C; 0x0D; 0x14; 0x15; 0x1C; 0x1D; 0x24; 0x25; 0x2C; 0x2D; 0x34; 0x35; 0x27; 0x2F; 0x37; 0x3F; 0x91; 0x92; 0x93; 0x94; 0x95; 0x96; 0x97;
          0x98; 0x9F; 0xA0; 0xA1; 0xAC; 0xAD; 0xD4; 0xD5; 0xD7; 0xE4; 0xE5; 0xEC; 0xED]
  | 1 => [0xE0; 0xE1; 0xE2; 0x6C; 0x6D; 0x6E; 0x6F; 0xA4; 0xA5; 0xA6; 0xA7; 0xAA; 0xAB; 0xAC; 0xAD; 0xAE; 0xAF]
  | 2 => [0x99]
  | 4 => pushing ++ popping ++ faulting
  | 5 => [0xC8; 0xC9]
  | 6 => [0x6E; 0x6F; 0xA4; 0xA5; 0xA6; 0xA7; 0xAC; 0xAD]
  | 7 => [0x6C; 0x6D; 0xA4; 0xA5; 0xA6; 0xA7; 0xAA; 0xAB; 0xAE; 0xAF]
  | _ => []
  end.
Definition changes_register (r : Z) : Z -> Z -> Prop :=
  listed (rm_dest ++ reg_dest ++ encoded r ++ implied r ++ [0x61] ++ ints) (rm_dest0F ++ reg_dest0F ++ (if r =? 4 then [0xA0; 0xA1; 0xA8; 0xA9] else [])).
(** Register r, all 32 bits. *)
Definition reg32 (r : Z) (a : arch) : Z := getf (32 * r) 32 (gprs a).
(** What the host configured: CPU type, block map, service table. *)
Definition config (a : arch) : Z * (Z -> Z) * (Z -> Z) := (cpu a, mtab a, hle a).
