(** Validation of the model against the project's own test programs (not a property, and not a proof of one).
    nativetest/RunArtlavTests assembles each nativetest/Artlav_80186_tests/*.asm, runs
      tester -b T.bin -O T.dmp --nogui "" --debug-level 2
    and compares the dump with the memory contents written in the leading comments of T.asm with cmpmemhex.
    Below the same pipeline is carried out in the model, from the command line to cmpmemhex's verdict, on the
    assembled programs (the bytes an assembler produces for the .asm files; everything not listed is 0) and the
    leading comments.  17 of the 18 programs pass: instruction results, FLAGS images, addressing, strings and jumps of
    the model agree with what the authors expect.  datatrnf fails, at 0Eh: [xchg di,[bx+si+2]] with BX = FFFFh is given an
    offset above 64K, so that it misses the word stored just before (the defect C14's refutation states).
    bcdcnv, div and mul come without expected contents: only that they end in HLT is checked. *)
From Coq Require Import String.
From Verif Require Import Base Cpu Machine Native Native2 Native3.
Open Scope Z_scope.

(** A 64 KB image: runs of bytes at their offsets, 0 elsewhere. *)
Fixpoint at_ (l : list (Z * list Z)) (x : Z) : Z :=
  match l with
  | [] => 0
  | (o, bs) :: r => if (o <=? x) && (x <? o + Z.of_nat (length bs)) then nth (Z.to_nat (x - o)) bs 0 else at_ r x
  end.
Fixpoint chars (t : string) : list Z := match t with EmptyString => [] | String c r => chr c :: chars r end.
Definition line (t : string) : list Z := chars t ++ [10].

(** RunArtlavTests: the tester's exit code, and whether cmpmemhex found a difference. *)
Definition artlav (image : list (Z * list Z)) (comments : list string) : option (Z * option bool) :=
  let GM := 0x10000000 in
  match nt_main GM (fun n => if String.eqb n "T.bin" then Some (0x10000, at_ image) else None) false
          ["-b"; "T.bin"; "-O"; "T.dmp"; "--nogui"; ""; "--debug-level"; "2"]%string with
  | SRun s => match main_loop (nt_env GM None false false) 4000 s with
              | MExit c s' => Some (c, cmpmemhex (flat_map line comments) (dump GM s'))
              | _ => None
              end
  | _ => None
  end.
Definition pass : option (Z * option bool) := Some (0, Some false).

(* add.asm *)
Definition i_add : list (Z * list Z) :=
  [(0, [188; 160; 0; 184; 255; 255; 187; 1; 0; 1; 195; 163; 0; 0; 137; 30; 2; 0; 156; 186; 255; 255; 199; 6; 4; 0; 255;
  255; 1; 22; 4; 0; 137; 22; 6; 0; 156; 185; 1; 0; 199; 6; 8; 0; 2; 0; 3; 14; 8; 0; 137; 14; 10; 0; 156; 184; 1; 0; 5;
  255; 127; 163; 12; 0; 156; 189; 0; 128; 131; 197; 255; 137; 46; 14; 0; 156; 190; 131; 199; 129; 198; 42; 235; 137; 54;
  16; 0; 156; 199; 6; 18; 0; 96; 137; 129; 6; 18; 0; 149; 10; 156; 199; 6; 20; 0; 225; 241; 131; 6; 20; 0; 100; 156;
  198; 6; 22; 0; 1; 128; 6; 22; 0; 255; 156; 182; 255; 128; 198; 255; 137; 22; 23; 0; 156; 176; 1; 4; 2; 163; 25; 0;
  156; 198; 6; 27; 0; 127; 181; 1; 2; 46; 27; 0; 137; 14; 28; 0; 156; 179; 128; 198; 6; 30; 0; 255; 0; 30; 30; 0; 137;
  30; 31; 0; 156; 176; 166; 180; 134; 0; 196; 163; 33; 0; 156; 184; 255; 255; 187; 1; 0; 17; 195; 163; 35; 0; 137; 30;
  37; 0; 156; 186; 255; 255; 199; 6; 39; 0; 255; 255; 17; 22; 39; 0; 137; 22; 41; 0; 156; 185; 1; 0; 199; 6; 43; 0; 2;
  0; 19; 14; 43; 0; 137; 14; 45; 0; 156; 184; 1; 0; 21; 255; 127; 163; 47; 0; 156; 189; 0; 128; 131; 213; 255; 137; 46;
  49; 0; 156; 190; 211; 119; 129; 214; 37; 132; 137; 54; 51; 0; 156; 199; 6; 53; 0; 160; 235; 129; 22; 53; 0; 193; 211;
  156; 199; 6; 55; 0; 80; 127; 131; 22; 55; 0; 245; 156; 198; 6; 57; 0; 1; 128; 22; 57; 0; 255; 156; 182; 255; 128; 214;
  255; 137; 22; 58; 0; 156; 176; 1; 20; 2; 163; 60; 0; 156; 198; 6; 62; 0; 127; 181; 1; 18; 46; 62; 0; 137; 14; 63; 0;
  156; 179; 128; 198; 6; 65; 0; 255; 16; 30; 65; 0; 137; 30; 66; 0; 156; 176; 185; 180; 211; 16; 196; 163; 68; 0; 156;
  191; 255; 255; 71; 137; 62; 70; 0; 156; 189; 255; 127; 255; 197; 137; 46; 72; 0; 156; 199; 6; 74; 0; 18; 116; 255; 6;
  74; 0; 156; 178; 127; 254; 194; 137; 22; 76; 0; 156; 198; 6; 77; 0; 255; 254; 6; 77; 0; 156; 198; 6; 78; 0; 181; 254;
  6; 78; 0; 156; 244]); (65513, [0; 0; 0; 0; 0; 0; 0; 233; 13]); (65528, [0; 0; 0; 0; 0; 0; 0; 255])].
Definition t_add : list string :=
  [";00: ff ff 00 00 fe ff ff ff  02 00 03 00 00 80 ff 7f";
   ";10: ad b2 f5 93 45 f2 00 ff  fe 03 80 7f 03 80 7f 80";
   ";20: 00 a6 2c ff ff 01 00 ff  ff ff ff 02 00 04 00 00";
   ";30: 80 ff 7f f9 fb 61 bf 46  7f 01 ff ff 04 80 7f 04";
   ";40: 80 7f 80 00 b9 8d 00 00  00 80 13 74 80 00 b6 XX";
   ";50: XX XX XX XX XX XX XX XX  XX XX XX XX 83 00 57 00";
   ";60: 93 08 03 00 97 08 57 00  87 00 03 08 92 08 02 00";
   ";70: 97 00 13 00 03 00 83 00  86 00 07 08 96 08 02 00";
   ";80: 97 00 13 00 03 08 03 08  92 08 06 00 93 00 57 00";
   ";90: 82 00 86 00 83 00 07 08  96 08 06 00 93 00 57 00";
   ""]%string.
Example artlav_add : artlav i_add t_add = pass.
Proof. vm_compute. reflexivity. Qed.
(* bcdcnv.asm *)
Definition i_bcdcnv : list (Z * list Z) :=
  [(0, [187; 1; 0; 185; 0; 0; 188; 144; 0; 184; 10; 0; 55; 163; 0; 0; 156; 184; 249; 255; 55; 163; 2; 0; 156; 83; 157;
  184; 249; 255; 55; 163; 4; 0; 156; 184; 80; 93; 55; 163; 6; 0; 156; 184; 38; 71; 55; 163; 8; 0; 156; 184; 10; 0; 63;
  163; 10; 0; 156; 184; 249; 255; 63; 163; 12; 0; 156; 83; 157; 184; 249; 255; 63; 163; 14; 0; 156; 184; 192; 220; 63;
  163; 16; 0; 156; 184; 251; 95; 63; 163; 18; 0; 156; 184; 172; 0; 39; 163; 20; 0; 156; 184; 249; 255; 39; 163; 22; 0;
  156; 83; 157; 184; 248; 255; 39; 163; 24; 0; 156; 81; 157; 184; 139; 255; 39; 163; 26; 0; 156; 81; 157; 184; 130; 0;
  39; 163; 28; 0; 156; 184; 60; 205; 39; 163; 30; 0; 156; 184; 0; 63; 39; 163; 32; 0; 156; 184; 172; 0; 47; 163; 34; 0;
  156; 184; 249; 255; 47; 163; 36; 0; 156; 83; 157; 184; 248; 255; 47; 163; 38; 0; 156; 81; 157; 184; 139; 255; 47; 163;
  40; 0; 156; 81; 157; 184; 130; 0; 47; 163; 42; 0; 156; 184; 154; 5; 47; 163; 44; 0; 156; 184; 246; 84; 47; 163; 46; 0;
  156; 184; 127; 255; 152; 163; 48; 0; 137; 22; 50; 0; 156; 184; 128; 0; 152; 163; 52; 0; 137; 22; 54; 0; 156; 184; 237;
  241; 152; 163; 56; 0; 137; 22; 58; 0; 156; 184; 0; 128; 153; 163; 60; 0; 137; 22; 62; 0; 156; 184; 255; 127; 153; 163;
  64; 0; 137; 22; 66; 0; 156; 184; 241; 67; 153; 163; 68; 0; 137; 22; 70; 0; 156; 244]); (65513, [0; 0; 0; 0; 0; 0; 0;
  233; 13]); (65528, [0; 0; 0; 0; 0; 0; 0; 255])].
Definition t_bcdcnv : list string :=
  ["use16"]%string.
Example artlav_bcdcnv : artlav i_bcdcnv t_bcdcnv = pass.
Proof. vm_compute. reflexivity. Qed.
(* bitwise.asm *)
Definition i_bitwise : list (Z * list Z) :=
  [(0, [184; 89; 118; 187; 184; 75; 185; 132; 60; 199; 6; 0; 0; 118; 27; 199; 6; 2; 0; 11; 36; 188; 0; 1; 33; 195; 156;
  137; 30; 32; 0; 35; 14; 2; 0; 156; 137; 14; 34; 0; 33; 14; 0; 0; 156; 37; 113; 69; 156; 163; 36; 0; 129; 227; 233; 39;
  156; 137; 30; 38; 0; 129; 38; 2; 0; 73; 53; 156; 32; 196; 156; 136; 38; 40; 0; 34; 14; 1; 0; 156; 136; 14; 41; 0; 32;
  46; 3; 0; 156; 36; 70; 156; 162; 42; 0; 128; 227; 45; 156; 136; 30; 43; 0; 128; 38; 2; 0; 198; 156; 184; 227; 5; 187;
  119; 248; 185; 232; 74; 186; 105; 59; 199; 6; 4; 0; 192; 48; 199; 6; 6; 0; 117; 87; 199; 6; 8; 0; 102; 254; 9; 195;
  156; 137; 30; 44; 0; 11; 14; 4; 0; 156; 137; 14; 46; 0; 9; 6; 6; 0; 156; 13; 195; 65; 156; 163; 48; 0; 129; 202; 93;
  176; 156; 137; 22; 50; 0; 129; 14; 8; 0; 76; 141; 156; 8; 196; 156; 136; 38; 52; 0; 10; 14; 5; 0; 156; 136; 14; 53; 0;
  8; 46; 6; 0; 156; 12; 67; 156; 162; 54; 0; 128; 203; 87; 156; 136; 30; 55; 0; 128; 14; 7; 0; 84; 156; 184; 180; 208;
  187; 184; 27; 185; 3; 43; 186; 230; 195; 199; 6; 10; 0; 57; 57; 199; 6; 12; 0; 75; 134; 199; 6; 14; 0; 135; 133; 49;
  195; 156; 137; 30; 56; 0; 51; 14; 10; 0; 156; 137; 14; 58; 0; 49; 6; 12; 0; 156; 53; 3; 61; 156; 163; 60; 0; 129; 242;
  45; 99; 156; 137; 22; 62; 0; 129; 54; 14; 0; 7; 207; 156; 48; 196; 156; 136; 38; 64; 0; 50; 14; 11; 0; 156; 136; 14;
  65; 0; 48; 46; 12; 0; 156; 52; 182; 156; 162; 66; 0; 128; 243; 174; 156; 136; 30; 67; 0; 128; 54; 13; 0; 223; 156;
  184; 55; 77; 187; 225; 219; 185; 73; 101; 186; 196; 92; 199; 6; 16; 0; 168; 168; 199; 6; 18; 0; 246; 53; 199; 6; 20;
  0; 0; 79; 133; 195; 156; 137; 30; 68; 0; 133; 14; 16; 0; 156; 137; 14; 70; 0; 133; 6; 18; 0; 156; 169; 111; 220; 156;
  163; 72; 0; 247; 194; 70; 48; 156; 137; 22; 74; 0; 247; 6; 20; 0; 228; 150; 156; 132; 196; 156; 136; 38; 76; 0; 132;
  14; 15; 0; 156; 136; 14; 77; 0; 132; 46; 16; 0; 156; 168; 192; 156; 162; 78; 0; 246; 195; 224; 156; 136; 30; 79; 0;
  246; 6; 17; 0; 187; 156; 186; 165; 191; 199; 6; 22; 0; 230; 75; 199; 6; 24; 0; 210; 233; 184; 177; 18; 80; 157; 247;
  210; 156; 137; 22; 80; 0; 247; 22; 22; 0; 156; 246; 210; 156; 136; 22; 82; 0; 246; 22; 24; 0; 156; 244]); (65513, [0;
  0; 0; 0; 0; 0; 0; 233; 13; 0; 255; 255; 255; 255; 255; 255; 255; 255; 255; 255; 255; 255; 255])].
Definition t_bitwise : list string :=
  [";00: 00 00 00 24 c0 30 ff 57 6e ff 39 39 ed 89 80 4a";
   ";10: a8 a8 f6 35 00 4f 19 b4 2d e9 XX XX XX XX XX XX";
   ";20: 18 42 00 24 51 44 08 02 40 00 40 08 f7 fd e8 7a";
   ";30: e3 45 7d bb e7 f8 e3 f7 0c cb 3a 12 b7 ed cb a0";
   ";40: 5a 03 01 a2 e1 db 49 65 37 4d c4 5c 4d 49 37 e1";
   ";50: 5a 40 a5 XX XX XX XX XX XX XX XX XX XX XX XX XX";
   ";60: XX XX XX XX XX XX XX XX XX XX XX XX XX XX XX XX";
   ";70: XX XX XX XX XX XX XX XX XX XX XX XX XX XX XX XX";
   ";80: XX XX XX XX XX XX XX XX XX XX XX XX XX XX XX XX";
   ";90: XX XX XX XX XX XX XX XX 93 02 93 02 93 02 93 02";
   ";a0: 82 00 82 00 46 00 02 00 06 00 06 00 06 00 06 00";
   ";b0: 06 00 06 00 02 00 06 00 82 00 82 00 02 00 86 00";
   ";c0: 06 00 06 00 02 00 82 00 86 00 06 00 06 00 86 00";
   ";d0: 02 00 82 00 82 00 86 00 82 00 86 00 82 00 86 00";
   ";e0: 02 00 02 00 06 00 82 00 46 00 02 00 02 00 06 00";
   ";f0: 46 00 02 00 06 00 02 00 02 00 46 00 06 00 06 00";
   ""]%string.
Example artlav_bitwise : artlav i_bitwise t_bitwise = pass.
Proof. vm_compute. reflexivity. Qed.
(* cmpneg.asm *)
Definition i_cmpneg : list (Z * list Z) :=
  [(0, [188; 96; 0; 184; 1; 0; 187; 2; 0; 57; 216; 163; 0; 0; 137; 30; 2; 0; 156; 186; 255; 255; 199; 6; 4; 0; 255; 255;
  57; 22; 4; 0; 137; 22; 6; 0; 156; 185; 255; 255; 199; 6; 8; 0; 1; 0; 57; 14; 8; 0; 137; 14; 10; 0; 156; 184; 0; 128;
  131; 248; 1; 163; 12; 0; 156; 189; 0; 128; 131; 253; 255; 137; 46; 14; 0; 156; 190; 129; 127; 129; 254; 60; 144; 137;
  54; 16; 0; 156; 199; 6; 18; 0; 195; 239; 129; 62; 18; 0; 100; 198; 156; 199; 6; 20; 0; 51; 233; 131; 62; 20; 0; 100;
  156; 198; 6; 22; 0; 1; 128; 62; 22; 0; 2; 156; 182; 255; 128; 254; 255; 137; 22; 23; 0; 156; 176; 255; 60; 1; 163; 25;
  0; 156; 198; 6; 27; 0; 128; 181; 1; 58; 46; 27; 0; 137; 14; 28; 0; 156; 179; 128; 198; 6; 30; 0; 127; 56; 30; 30; 0;
  137; 30; 31; 0; 156; 176; 188; 180; 142; 56; 196; 163; 33; 0; 156; 185; 0; 0; 247; 217; 137; 14; 34; 0; 156; 199; 6;
  36; 0; 255; 127; 247; 30; 36; 0; 156; 189; 0; 128; 247; 221; 137; 46; 38; 0; 156; 199; 6; 40; 0; 233; 172; 247; 30;
  40; 0; 156; 180; 0; 246; 220; 163; 42; 0; 156; 198; 6; 44; 0; 127; 246; 30; 44; 0; 156; 177; 201; 246; 217; 137; 14;
  45; 0; 156; 198; 6; 47; 0; 128; 246; 30; 47; 0; 156; 244]); (65513, [0; 0; 0; 0; 0; 0; 0; 233; 13; 0; 255; 255; 255;
  255; 255; 255; 255; 255; 255; 255; 255; 255; 255])].
Definition t_cmpneg : list string :=
  [";00: 01 00 02 00 ff ff ff ff 01 00 ff ff 00 80 00 80";
   ";10: 81 7f c3 ef 33 e9 01 ff ff ff 80 80 ff 01 7f 80";
   ";20: 00 bc 00 00 01 80 00 80 17 53 bc 00 81 37 00 80";
   ";30: XX XX XX XX 83 08 13 00 97 00 46 00 17 00 87 08";
   ";40: 93 00 46 00 87 00 87 08 87 08 82 00 46 00 97 00";
   ";50: 96 00 16 00 93 08 93 00 16 08 13 00 46 00 97 00";
   ""]%string.
Example artlav_cmpneg : artlav i_cmpneg t_cmpneg = pass.
Proof. vm_compute. reflexivity. Qed.
(* control.asm *)
Definition i_control : list (Z * list Z) :=
  [(0, [184; 0; 16; 142; 208; 188; 0; 16; 185; 255; 254; 81; 157; 248; 252; 250; 144; 156; 88; 186; 1; 0; 82; 157; 245;
  249; 253; 251; 156; 91; 185; 0; 0; 142; 217; 163; 0; 0; 137; 30; 2; 0; 244]); (65513, [0; 0; 0; 0; 0; 0; 0; 233; 13;
  0; 255; 255; 255; 255; 255; 255; 255; 255; 255; 255; 255; 255; 255])].
Definition t_control : list string :=
  [";00h: d6 08 03 06";
   ""]%string.
Example artlav_control : artlav i_control t_control = pass.
Proof. vm_compute. reflexivity. Qed.
(* datatrnf.asm *)
Definition i_datatrnf : list (Z * list Z) :=
  [(0, [180; 237; 158; 159; 136; 38; 0; 0; 136; 224; 184; 183; 0; 137; 194; 180; 165; 176; 199; 163; 2; 0; 158; 159;
  163; 32; 0; 184; 82; 247; 137; 195; 184; 199; 135; 147; 142; 216; 197; 183; 13; 3; 184; 0; 0; 140; 219; 142; 216; 137;
  30; 4; 0; 137; 54; 6; 0; 142; 219; 187; 255; 255; 184; 0; 16; 184; 152; 87; 142; 208; 188; 9; 0; 185; 205; 171; 81;
  185; 241; 140; 142; 193; 6; 157; 196; 120; 210; 141; 179; 60; 254; 156; 184; 0; 0; 142; 216; 137; 62; 8; 0; 140; 192;
  163; 10; 0; 137; 54; 12; 0; 184; 0; 16; 142; 216; 143; 68; 1; 135; 120; 2; 255; 112; 2; 7; 140; 194; 140; 216; 185; 0;
  0; 142; 217; 137; 62; 14; 0; 137; 22; 16; 0; 142; 216; 90; 82; 143; 193; 135; 217; 140; 216; 186; 0; 0; 142; 218; 137;
  30; 18; 0; 137; 14; 20; 0; 142; 216; 140; 1; 187; 0; 184; 184; 161; 160; 215; 134; 196; 215; 186; 0; 0; 142; 218; 163;
  22; 0; 186; 183; 0; 176; 255; 176; 241; 163; 24; 0; 244]); (65513, [0; 0; 0; 0; 0; 0; 0; 233; 13; 0; 0; 52; 18; 120;
  86; 0; 0; 0; 0; 0; 0; 0; 255])].
Definition t_datatrnf : list string :=
  [";00: c7 XX c7 a5 78 56 34 12 f1 8c cd ab 2d 8b d3 0c";
   ";10: f1 8c cd ab ff ff f1 8c f1 8c XX XX XX XX XX XX";
   ";20: c7 87";
   ""]%string.
Example artlav_datatrnf : artlav i_datatrnf t_datatrnf = Some (0, Some true).
Proof. vm_compute. reflexivity. Qed.
(* div.asm *)
Definition i_div : list (Z * list Z) :=
  [(0, [188; 208; 0; 199; 6; 0; 0; 0; 16; 199; 6; 2; 0; 0; 240; 189; 208; 0; 186; 0; 0; 184; 20; 0; 187; 5; 0; 199; 70;
  0; 2; 0; 247; 243; 131; 197; 2; 163; 128; 0; 137; 30; 130; 0; 137; 22; 4; 0; 156; 186; 32; 163; 184; 218; 195; 199; 6;
  6; 0; 255; 255; 199; 70; 0; 4; 0; 247; 54; 6; 0; 131; 197; 2; 163; 8; 0; 137; 22; 10; 0; 156; 186; 255; 255; 184; 255;
  255; 185; 1; 0; 199; 70; 0; 2; 0; 247; 241; 131; 197; 2; 163; 12; 0; 137; 14; 14; 0; 137; 22; 16; 0; 156; 186; 255;
  255; 184; 255; 255; 199; 6; 18; 0; 255; 255; 199; 70; 0; 4; 0; 247; 54; 18; 0; 131; 197; 2; 163; 20; 0; 137; 22; 22;
  0; 156; 186; 180; 251; 184; 218; 195; 185; 142; 174; 199; 70; 0; 2; 0; 247; 241; 131; 197; 2; 163; 24; 0; 137; 14; 26;
  0; 137; 22; 28; 0; 156; 186; 201; 37; 184; 16; 241; 199; 70; 0; 2; 0; 247; 240; 131; 197; 2; 163; 30; 0; 137; 22; 32;
  0; 156; 184; 20; 0; 187; 5; 0; 199; 70; 0; 2; 0; 246; 243; 131; 197; 2; 163; 34; 0; 137; 30; 36; 0; 137; 22; 38; 0;
  156; 186; 32; 163; 184; 218; 195; 199; 6; 40; 0; 255; 0; 199; 70; 0; 4; 0; 246; 54; 40; 0; 131; 197; 2; 163; 42; 0;
  137; 22; 44; 0; 156; 184; 255; 255; 182; 1; 199; 70; 0; 2; 0; 246; 246; 131; 197; 2; 163; 46; 0; 137; 22; 48; 0; 156;
  184; 255; 255; 199; 6; 50; 0; 255; 255; 199; 70; 0; 4; 0; 246; 54; 51; 0; 131; 197; 2; 163; 52; 0; 137; 22; 54; 0;
  156; 184; 138; 0; 185; 142; 174; 199; 70; 0; 2; 0; 246; 241; 131; 197; 2; 163; 56; 0; 137; 14; 58; 0; 156; 186; 105;
  6; 184; 243; 137; 199; 70; 0; 2; 0; 246; 240; 131; 197; 2; 163; 60; 0; 137; 22; 62; 0; 156; 186; 0; 0; 184; 20; 0;
  187; 250; 0; 199; 70; 0; 2; 0; 247; 251; 131; 197; 2; 163; 64; 0; 137; 30; 66; 0; 137; 22; 68; 0; 156; 186; 32; 163;
  184; 218; 195; 199; 6; 70; 0; 255; 255; 199; 70; 0; 4; 0; 247; 62; 70; 0; 131; 197; 2; 163; 72; 0; 137; 22; 74; 0;
  156; 186; 255; 255; 184; 255; 255; 185; 1; 0; 199; 70; 0; 2; 0; 247; 249; 131; 197; 2; 163; 76; 0; 137; 14; 78; 0;
  137; 22; 80; 0; 156; 186; 255; 255; 184; 255; 255; 199; 6; 82; 0; 255; 255; 199; 70; 0; 4; 0; 247; 62; 82; 0; 131;
  197; 2; 163; 84; 0; 137; 22; 86; 0; 156; 186; 180; 251; 184; 218; 195; 185; 142; 174; 199; 70; 0; 2; 0; 247; 249; 131;
  197; 2; 163; 88; 0; 137; 14; 90; 0; 137; 22; 92; 0; 156; 186; 201; 37; 184; 16; 241; 199; 70; 0; 2; 0; 247; 248; 131;
  197; 2; 163; 94; 0; 137; 22; 96; 0; 156; 184; 20; 0; 187; 5; 0; 199; 70; 0; 2; 0; 246; 251; 131; 197; 2; 163; 98; 0;
  137; 30; 100; 0; 137; 22; 102; 0; 156; 186; 32; 163; 184; 218; 195; 199; 6; 104; 0; 255; 0; 199; 70; 0; 4; 0; 246; 62;
  104; 0; 131; 197; 2; 163; 106; 0; 137; 22; 108; 0; 156; 184; 255; 255; 182; 1; 199; 70; 0; 2; 0; 246; 254; 131; 197;
  2; 163; 110; 0; 137; 22; 112; 0; 156; 184; 255; 255; 199; 6; 114; 0; 255; 255; 199; 70; 0; 4; 0; 246; 62; 115; 0; 131;
  197; 2; 163; 116; 0; 137; 22; 118; 0; 156; 184; 138; 0; 185; 142; 174; 199; 70; 0; 2; 0; 246; 249; 131; 197; 2; 163;
  120; 0; 137; 14; 122; 0; 156; 186; 105; 6; 184; 243; 137; 199; 70; 0; 2; 0; 246; 248; 131; 197; 2; 163; 124; 0; 137;
  22; 126; 0; 156; 184; 255; 255; 199; 70; 0; 2; 0; 212; 0; 131; 197; 2; 163; 132; 0; 156; 199; 70; 0; 2; 0; 212; 1;
  131; 197; 2; 163; 134; 0; 156; 184; 255; 255; 199; 70; 0; 2; 0; 212; 10; 131; 197; 2; 163; 136; 0; 156; 184; 0; 255;
  199; 70; 0; 2; 0; 212; 0; 131; 197; 2; 163; 138; 0; 156; 199; 70; 0; 2; 0; 212; 1; 131; 197; 2; 163; 140; 0; 156; 184;
  251; 63; 199; 70; 0; 2; 0; 212; 10; 131; 197; 2; 163; 142; 0; 156; 244]); (4089, [0; 0; 0; 0; 0; 0; 0; 80; 87; 139;
  70; 0; 137; 230; 131; 198; 4; 139; 52; 137; 118; 0; 1; 198; 137; 231; 131; 199; 4; 137; 53; 95; 88; 207]); (65513, [0;
  0; 0; 0; 0; 0; 0; 233; 13]); (65528, [0; 0; 0; 0; 0; 0; 0; 255])].
Definition t_div : list string :=
  ["use16"]%string.
Example artlav_div : artlav i_div t_div = pass.
Proof. vm_compute. reflexivity. Qed.
(* interrupt.asm *)
Definition i_interrupt : list (Z * list Z) :=
  [(0, [186; 0; 0; 142; 218; 188; 0; 16; 140; 212; 199; 6; 52; 0; 224; 235; 199; 6; 54; 0; 66; 227; 184; 255; 14; 80;
  157; 198; 6; 0; 0; 0; 205; 13; 198; 6; 2; 0; 2; 255; 224]); (3280, [0; 0; 0; 0; 0; 0; 0; 198; 6; 3; 0; 3; 156; 91;
  199; 6; 12; 0; 224; 235; 199; 6; 14; 0; 66; 227; 204; 198; 6; 4; 0; 4; 199; 6; 16; 0; 1; 48; 199; 6; 18; 0; 0; 240;
  206; 244]); (8185, [0; 0; 0; 0; 0; 0; 0; 198; 6; 1; 0; 1; 156; 88; 248; 207]); (12282, [0; 0; 0; 0; 0; 0; 0; 198; 6;
  5; 0; 5; 89; 185; 2; 64; 81; 207]); (16379, [0; 0; 0; 0; 0; 0; 0; 198; 6; 6; 0; 6; 186; 255; 4; 82; 157; 199; 6; 16;
  0; 0; 80; 206; 163; 8; 0; 137; 30; 10; 0; 137; 14; 12; 0; 137; 22; 14; 0; 137; 38; 16; 0; 244]); (20473, [0; 0; 0; 0;
  0; 0; 0; 244]); (65513, [0; 0; 0; 0; 0; 0; 0; 233; 13; 0; 255; 255; 255; 255; 255; 255; 255; 255; 255; 255; 255; 255;
  255])].
Definition t_interrupt : list string :=
  [";00h: 00 01 02 03 04 05 06 XX D7 0c d7 0E 02 40 FF 04";
   ";10h: 00 00 00 f0 ";
   ""]%string.
Example artlav_interrupt : artlav i_interrupt t_interrupt = pass.
Proof. vm_compute. reflexivity. Qed.
(* jmpmov.asm *)
Definition i_jmpmov : list (Z * list Z) :=
  [(0, [235; 12; 244]); (7, [0; 0; 0; 0; 0; 0; 0; 187; 0; 240; 142; 219; 161; 242; 255; 255; 224; 244]); (4745, [0; 0;
  0; 0; 0; 0; 0; 234; 224; 235; 66; 227; 244]); (8185, [0; 0; 0; 0; 0; 0; 0; 187; 0; 16; 142; 219; 180; 251; 176; 225;
  163; 1; 37; 199; 6; 0; 38; 1; 16; 142; 22; 0; 38; 140; 22; 1; 38; 138; 22; 1; 38; 182; 0; 137; 215; 189; 6; 37; 255;
  99; 234; 244]); (12282, [0; 0; 0; 0; 0; 0; 0; 186; 0; 241; 184; 54; 37; 239; 199; 192; 1; 64; 187; 1; 37; 137; 7; 191;
  2; 0; 198; 1; 0; 181; 4; 136; 233; 181; 0; 137; 206; 198; 64; 255; 240; 190; 3; 0; 255; 106; 232; 244]); (16378, [0;
  0; 0; 0; 0; 0; 0; 139; 64; 253; 186; 0; 0; 142; 218; 163; 0; 0; 244]); (65513, [0; 0; 0; 0; 0; 0; 0; 235; 14; 144;
  18]); (65527, [0; 0; 0; 0; 0; 0; 0; 255; 255])].
Definition t_jmpmov : list string :=
  [";00: 01 40";
   ""]%string.
Example artlav_jmpmov : artlav i_jmpmov t_jmpmov = pass.
Proof. vm_compute. reflexivity. Qed.
(* jump1.asm *)
Definition i_jump1 : list (Z * list Z) :=
  [(0, [185; 0; 0; 187; 64; 0; 188; 0; 16; 142; 212; 83; 235; 3; 233; 226; 255; 249; 119; 250; 248; 119; 3; 233; 217;
  255; 249; 115; 250; 248; 115; 3; 233; 208; 255; 114; 251; 249; 114; 3; 233; 200; 255; 248; 118; 250; 157; 118; 3; 233;
  191; 255; 81; 157; 116; 249; 83; 157; 116; 3; 233; 180; 255; 186; 192; 8; 82; 157; 127; 246; 186; 128; 8; 82; 157;
  127; 3; 233; 163; 255; 186; 128; 0; 82; 157; 125; 246; 81; 157; 125; 3; 233; 149; 255; 124; 251; 186; 0; 8; 82; 157;
  124; 3; 233; 137; 255; 81; 157; 126; 249; 83; 157; 126; 3; 233; 126; 255; 117; 251; 186; 191; 12; 82; 157; 117; 3;
  233; 114; 255; 186; 0; 8; 82; 157; 113; 246; 186; 255; 6; 82; 157; 113; 3; 233; 97; 255; 186; 4; 0; 82; 157; 123; 246;
  81; 157; 123; 3; 233; 83; 255; 186; 255; 14; 82; 157; 121; 246; 81; 157; 121; 3; 233; 69; 255; 112; 251; 186; 0; 8;
  82; 157; 112; 3; 233; 57; 255; 122; 251; 186; 4; 8; 82; 157; 122; 3; 233; 45; 255; 120; 251; 186; 132; 8; 82; 157;
  120; 3; 233; 33; 255; 199; 6; 0; 0; 52; 18; 244]); (65513, [0; 0; 0; 0; 0; 0; 0; 233; 13; 0; 244]); (65528, [0; 0; 0;
  0; 0; 0; 0; 255])].
Definition t_jump1 : list string :=
  [";00: 34 12";
   "use16"]%string.
Example artlav_jump1 : artlav i_jump1 t_jump1 = pass.
Proof. vm_compute. reflexivity. Qed.
(* jump2.asm *)
Definition i_jump2 : list (Z * list Z) :=
  [(0, [187; 0; 240; 142; 219; 184; 144; 18; 185; 5; 0; 81; 226; 253; 255; 208; 195]); (4745, [0; 0; 0; 0; 0; 0; 0; 185;
  255; 255; 225; 251; 186; 64; 0; 82; 157; 225; 1; 244; 154; 224; 235; 66; 227; 227; 249; 185; 0; 0; 227; 1; 244; 194;
  10]); (8185, [0; 0; 0; 0; 0; 0; 0; 255; 22; 0; 48; 186; 0; 0; 82; 157; 185; 1; 0; 224; 251; 224; 1; 244; 203]);
  (12281, [0; 0; 0; 0; 0; 0; 0; 224; 253; 0; 64; 0; 240]); (12793, [0; 0; 0; 0; 0; 0; 0; 187; 240; 47; 190; 16; 0; 82;
  255; 88; 2; 195]); (16377, [0; 0; 0; 0; 0; 0; 0; 202; 2]); (65513, [0; 0; 0; 0; 0; 0; 0; 188; 0; 16; 142; 212; 232; 8;
  0; 142; 217; 137; 30; 0; 0; 244; 255])].
Definition t_jump2 : list string :=
  [";00: f0 2f";
   ""]%string.
Example artlav_jump2 : artlav i_jump2 t_jump2 = pass.
Proof. vm_compute. reflexivity. Qed.
(* mul.asm *)
Definition i_mul : list (Z * list Z) :=
  [(0, [188; 192; 0; 187; 3; 0; 184; 7; 0; 186; 255; 255; 247; 227; 163; 0; 0; 137; 22; 2; 0; 156; 186; 32; 163; 184;
  255; 255; 247; 226; 163; 4; 0; 137; 22; 6; 0; 156; 184; 255; 255; 199; 6; 8; 0; 1; 0; 247; 38; 8; 0; 163; 10; 0; 137;
  22; 12; 0; 156; 184; 255; 255; 199; 6; 14; 0; 255; 255; 247; 38; 14; 0; 163; 16; 0; 137; 22; 18; 0; 156; 184; 219; 70;
  189; 0; 0; 247; 229; 137; 46; 20; 0; 163; 22; 0; 137; 22; 24; 0; 156; 184; 219; 70; 190; 235; 238; 247; 230; 137; 54;
  26; 0; 163; 28; 0; 137; 22; 30; 0; 156; 179; 20; 184; 7; 255; 186; 255; 255; 246; 227; 163; 32; 0; 137; 22; 34; 0;
  156; 181; 36; 184; 255; 0; 246; 229; 163; 36; 0; 137; 22; 38; 0; 156; 184; 255; 0; 198; 6; 40; 0; 1; 246; 38; 40; 0;
  163; 41; 0; 137; 22; 43; 0; 156; 184; 255; 255; 198; 6; 45; 0; 255; 246; 38; 45; 0; 163; 46; 0; 137; 22; 46; 0; 156;
  184; 197; 0; 186; 0; 0; 246; 226; 137; 22; 48; 0; 163; 50; 0; 156; 176; 181; 182; 249; 246; 230; 137; 54; 52; 0; 163;
  54; 0; 137; 22; 56; 0; 156; 187; 3; 0; 184; 7; 0; 186; 255; 255; 247; 235; 163; 60; 0; 137; 22; 62; 0; 156; 186; 32;
  163; 184; 255; 255; 247; 234; 163; 64; 0; 137; 22; 66; 0; 156; 184; 255; 255; 199; 6; 68; 0; 1; 0; 247; 46; 68; 0;
  163; 70; 0; 137; 22; 72; 0; 156; 184; 255; 255; 199; 6; 74; 0; 255; 255; 247; 46; 74; 0; 163; 76; 0; 137; 22; 78; 0;
  156; 184; 219; 70; 189; 0; 0; 247; 237; 137; 46; 80; 0; 163; 82; 0; 137; 22; 84; 0; 156; 184; 219; 70; 190; 235; 238;
  247; 238; 137; 54; 86; 0; 163; 88; 0; 137; 22; 90; 0; 156; 179; 20; 184; 7; 255; 186; 255; 255; 246; 235; 163; 92; 0;
  137; 22; 94; 0; 156; 181; 36; 184; 255; 0; 246; 237; 163; 96; 0; 137; 22; 98; 0; 156; 184; 255; 0; 198; 6; 100; 0; 1;
  246; 46; 100; 0; 163; 101; 0; 137; 22; 103; 0; 156; 184; 255; 255; 198; 6; 105; 0; 255; 246; 46; 105; 0; 163; 106; 0;
  137; 22; 106; 0; 156; 184; 197; 0; 186; 0; 0; 246; 234; 137; 22; 108; 0; 163; 110; 0; 156; 176; 181; 182; 249; 246;
  238; 137; 54; 112; 0; 163; 114; 0; 137; 22; 116; 0; 156; 184; 0; 255; 213; 10; 163; 118; 0; 156; 184; 255; 255; 213;
  18; 163; 120; 0; 156; 184; 255; 0; 213; 255; 163; 122; 0; 156; 184; 45; 83; 213; 57; 163; 124; 0; 156; 244]); (65513,
  [0; 0; 0; 0; 0; 0; 0; 233; 13]); (65528, [0; 0; 0; 0; 0; 0; 0; 255])].
Definition t_mul : list string :=
  ["use16"]%string.
Example artlav_mul : artlav i_mul t_mul = pass.
Proof. vm_compute. reflexivity. Qed.
(* rep.asm *)
Definition i_rep : list (Z * list Z) :=
  [(0, [243; 164; 243; 164; 242; 164; 243; 166; 243; 166; 242; 166; 243; 174; 243; 174; 242; 174; 243; 172; 243; 172;
  242; 172; 243; 170; 243; 170; 242; 170; 187; 64; 0; 83; 157; 243; 164; 242; 164; 243; 166; 242; 166; 243; 174; 242;
  174; 243; 172; 242; 172; 243; 170; 242; 170; 137; 248; 180; 16; 255; 224; 244]); (251, [0; 0; 0; 0; 0; 0; 0; 233; 72;
  47]); (1536, [0; 0; 0; 0; 0; 0; 0; 233; 37; 42]); (2050, [0; 0; 0; 0; 0; 0; 0; 233; 1; 40]); (4085, [0; 0; 0; 0; 0; 0;
  0; 235; 16; 235; 7; 185; 0; 0; 243; 81; 255; 228; 185; 10; 17; 243; 81; 255; 228; 255; 225]); (4355, [0; 0; 0; 0; 0;
  0; 0; 185; 5; 0; 186; 0; 0; 82; 157; 242; 89; 137; 200; 180; 32; 255; 224]); (4645, [0; 0; 0; 0; 0; 0; 0; 233; 1; 46;
  233; 242; 45]); (8195, [0; 0; 0; 0; 0; 0; 0; 83; 157; 185; 2; 0; 190; 0; 48; 184; 0; 240; 142; 216; 184; 0; 16; 142;
  192; 191; 0; 0; 243; 164; 142; 216; 161; 0; 0; 137; 253; 137; 2; 227; 1; 244; 255; 38; 4; 48]); (12281, [0; 0; 0; 0;
  0; 0; 0; 9; 8; 7; 6; 5; 4; 3; 2; 1; 10; 11; 12; 13; 184; 0; 240; 142; 216; 185; 1; 0; 184; 0; 0; 80; 157; 243; 165;
  184; 0; 16; 142; 216; 161; 2; 0; 137; 253; 137; 2; 227; 1; 244; 255; 38; 8; 48; 184; 0; 240; 142; 216; 185; 3; 0; 243;
  172; 255; 224; 244; 187; 64; 0; 83; 157; 184; 0; 240; 142; 216; 185; 1; 0; 243; 173; 255; 224; 185; 2; 0; 184; 0; 64;
  243; 171; 184; 0; 16; 142; 216; 255; 38; 6; 0; 244]); (16377, [0; 0; 0; 0; 0; 0; 0; 187; 0; 0; 83; 157; 185; 4; 0;
  243; 171; 227; 1; 244; 187; 64; 0; 83; 157; 185; 52; 18; 190; 0; 48; 191; 0; 0; 184; 0; 240; 142; 216; 243; 166; 255;
  225; 187; 64; 0; 83; 157; 184; 64; 0; 243; 175; 255; 225; 184; 7; 6; 185; 4; 80; 243; 167; 243; 175; 187; 64; 0; 83;
  157; 190; 0; 48; 191; 0; 0; 242; 167; 242; 175; 255; 225; 244]); (20473, [0; 0; 0; 0; 0; 0; 0; 185; 2; 0; 242; 164;
  227; 1; 244; 185; 2; 0; 242; 172; 227; 1; 244; 185; 2; 0; 242; 170; 227; 1; 244; 187; 0; 0; 83; 157; 185; 35; 96; 253;
  191; 6; 0; 190; 6; 48; 242; 167; 184; 0; 16; 187; 0; 0; 83; 157; 252; 242; 175; 255; 225; 244]); (24596, [0; 0; 0; 0;
  0; 0; 0; 186; 0; 0; 142; 218; 199; 6; 4; 0; 52; 18; 244]); (61436, [0; 0; 0; 0; 0; 0; 0; 233; 54; 64]); (65513, [0; 0;
  0; 0; 0; 0; 0; 188; 0; 16; 142; 212; 233; 8]); (65528, [0; 0; 0; 0; 0; 0; 0; 255])].
Definition t_rep : list string :=
  [";00: XX XX XX XX 34 12";
   "use16"]%string.
Example artlav_rep : artlav i_rep t_rep = pass.
Proof. vm_compute. reflexivity. Qed.
(* rotate.asm *)
Definition i_rotate : list (Z * list Z) :=
  [(0, [184; 94; 59; 187; 167; 200; 199; 6; 0; 0; 114; 32; 199; 6; 2; 0; 121; 62; 188; 160; 0; 209; 208; 156; 163; 32;
  0; 209; 22; 0; 0; 156; 185; 0; 1; 211; 211; 156; 137; 30; 34; 0; 185; 255; 255; 137; 218; 211; 210; 156; 137; 22; 36;
  0; 177; 8; 211; 211; 156; 137; 30; 38; 0; 177; 4; 211; 22; 2; 0; 156; 186; 4; 89; 184; 124; 190; 199; 6; 4; 0; 47;
  214; 199; 6; 6; 0; 216; 111; 208; 212; 156; 163; 40; 0; 208; 22; 5; 0; 156; 177; 7; 210; 210; 156; 137; 22; 42; 0;
  210; 22; 6; 0; 156; 184; 214; 21; 187; 7; 131; 199; 6; 8; 0; 183; 154; 199; 6; 10; 0; 182; 40; 209; 216; 156; 163; 44;
  0; 209; 30; 8; 0; 156; 185; 0; 1; 211; 219; 156; 137; 30; 46; 0; 185; 255; 255; 137; 218; 211; 218; 156; 137; 22; 48;
  0; 177; 5; 211; 219; 156; 137; 30; 50; 0; 177; 4; 211; 30; 10; 0; 156; 186; 170; 126; 184; 141; 58; 199; 6; 12; 0; 20;
  164; 199; 6; 14; 0; 56; 40; 208; 220; 156; 163; 52; 0; 208; 30; 13; 0; 156; 177; 7; 210; 218; 156; 137; 22; 54; 0;
  210; 30; 14; 0; 156; 184; 13; 2; 187; 90; 141; 199; 6; 16; 0; 221; 40; 199; 6; 18; 0; 74; 215; 209; 192; 156; 163; 56;
  0; 209; 6; 16; 0; 156; 185; 0; 1; 211; 195; 156; 137; 30; 58; 0; 185; 255; 255; 137; 218; 211; 194; 156; 137; 22; 60;
  0; 177; 4; 211; 195; 156; 137; 30; 62; 0; 177; 4; 211; 6; 18; 0; 156; 186; 9; 157; 184; 72; 201; 199; 6; 20; 0; 128;
  11; 199; 6; 22; 0; 232; 72; 208; 196; 156; 163; 64; 0; 208; 6; 21; 0; 156; 177; 7; 210; 194; 156; 137; 22; 66; 0; 210;
  6; 22; 0; 156; 184; 94; 242; 187; 181; 46; 199; 6; 24; 0; 81; 1; 199; 6; 26; 0; 55; 114; 209; 200; 156; 163; 68; 0;
  209; 14; 24; 0; 156; 185; 0; 1; 211; 203; 156; 137; 30; 70; 0; 185; 255; 255; 137; 218; 211; 202; 156; 137; 22; 72; 0;
  177; 4; 211; 203; 156; 137; 30; 74; 0; 177; 4; 211; 14; 26; 0; 156; 186; 136; 66; 184; 171; 139; 199; 6; 28; 0; 217;
  93; 199; 6; 30; 0; 247; 199; 208; 204; 156; 163; 76; 0; 208; 14; 29; 0; 156; 177; 7; 210; 202; 156; 137; 22; 78; 0;
  210; 14; 30; 0; 156; 244]); (65513, [0; 0; 0; 0; 0; 0; 0; 233; 13]); (65528, [0; 0; 0; 0; 0; 0; 0; 255])].
Definition t_rotate : list string :=
  [";00: e4 40 91 e7 2f ad 36 6f  5b 4d 8b c2 14 52 e0 28  |.@../.6o[M...R.(|";
   ";10: ba 51 ad 74 80 16 74 48  a8 80 23 77 d9 ae ef c7  |.Q.t..tH..#w....|";
   ";20: bc 76 a7 c8 14 d9 e4 a7  7c 7d 41 59 eb 0a 07 83  |.v......|}AY....|";
   ";30: 3e 18 18 74 8d 1d a9 7e  1a 04 5a 8d ad 46 a8 d5  |>..t...~..Z..F..|";
   ";40: 48 93 84 9d 2f 79 b5 2e  6a 5d eb 52 ab c5 11 42  |H.../y..j].R...B|";
   ";50: 03 00 02 00 03 08 03 00  02 08 02 08 02 08 03 08  |................|";
   ";60: 03 08 02 08 02 00 02 08  02 00 03 00 03 08 02 08  |................|";
   ";70: 03 08 02 00 02 00 02 00  02 00 02 08 02 08 02 00  |................|";
   ";80: 02 00 02 08 02 00 03 08  03 08 02 00 02 00 02 00  |................|";
   ";90: 03 00 03 08 03 00 02 08  03 00 02 00 02 00 02 00  |................|";
   "; ^ from qemu"]%string.
Example artlav_rotate : artlav i_rotate t_rotate = pass.
Proof. vm_compute. reflexivity. Qed.
(* segpr.asm *)
Definition i_segpr : list (Z * list Z) :=
  [(0, [187; 0; 241; 142; 195; 38; 139; 30; 0; 0; 38; 161; 2; 0; 163; 2; 0; 188; 2; 0; 38; 83; 38; 196; 22; 0; 0; 137;
  22; 4; 0; 140; 194; 137; 22; 6; 0; 191; 5; 0; 46; 141; 115; 23; 137; 54; 8; 0; 187; 5; 0; 184; 5; 0; 199; 6; 10; 0;
  69; 35; 186; 0; 241; 142; 194; 38; 215; 163; 12; 0; 184; 1; 0; 142; 208; 199; 6; 16; 0; 6; 0; 54; 255; 6; 0; 0; 188;
  32; 0; 199; 6; 18; 0; 0; 0; 54; 243; 247; 54; 2; 0; 131; 236; 6; 199; 6; 20; 0; 0; 18; 187; 5; 0; 190; 3; 0; 243; 54;
  255; 80; 252; 244]); (4090, [0; 0; 0; 0; 0; 0; 0; 17; 0; 240; 0; 0; 0; 0; 0; 0; 120; 86]); (4345, [0; 0; 0; 0; 0; 0;
  0; 137; 230; 54; 139; 52; 137; 54; 14; 0; 131; 198; 6; 137; 231; 54; 137; 53; 207]); (4601, [0; 0; 0; 0; 0; 0; 0; 185;
  32; 241; 142; 193; 190; 0; 2; 191; 1; 14; 38; 166; 156; 184; 1; 0; 142; 192; 191; 6; 0; 190; 0; 20; 185; 6; 0; 243;
  46; 164; 244]); (5113, [0; 0; 0; 0; 0; 0; 0; 1; 255; 255; 128; 2; 0; 194]); (8186, [0; 0; 0; 0; 0; 0; 0; 2; 255; 1; 1;
  1; 128]); (65513, [0; 0; 0; 0; 0; 0; 0; 233; 13]); (65528, [0; 0; 0; 0; 0; 0; 0; 255])].
Definition t_segpr : list string :=
  [";00: 00 11 00 f0 00 11 00 f0 1c 00 45 23 78 00 5f 00";
   ";10: 07 00 00 00 00 12 01 ff ff 80 02 00 XX XX XX XX";
   ";20: XX XX XX XX XX XX 97 00 79 00 65 00 00 f0 02 00";
   ""]%string.
Example artlav_segpr : artlav i_segpr t_segpr = pass.
Proof. vm_compute. reflexivity. Qed.
(* shifts.asm *)
Definition i_shifts : list (Z * list Z) :=
  [(0, [184; 197; 110; 187; 168; 177; 199; 6; 0; 0; 56; 83; 199; 6; 2; 0; 254; 49; 188; 128; 0; 209; 224; 156; 163; 32;
  0; 209; 38; 0; 0; 156; 185; 0; 1; 211; 227; 156; 137; 30; 34; 0; 185; 255; 255; 137; 218; 211; 226; 156; 137; 22; 36;
  0; 177; 8; 211; 227; 156; 137; 30; 38; 0; 177; 4; 210; 38; 2; 0; 156; 186; 111; 149; 184; 147; 66; 199; 6; 4; 0; 192;
  51; 199; 6; 6; 0; 255; 100; 208; 228; 156; 163; 40; 0; 208; 38; 5; 0; 156; 177; 7; 210; 226; 156; 137; 22; 42; 0; 210;
  38; 6; 0; 156; 184; 114; 251; 187; 185; 223; 199; 6; 8; 0; 187; 30; 199; 6; 10; 0; 47; 116; 209; 248; 156; 163; 44; 0;
  209; 62; 8; 0; 156; 185; 0; 1; 211; 251; 156; 137; 30; 46; 0; 185; 255; 255; 137; 218; 211; 250; 156; 137; 22; 48; 0;
  177; 5; 211; 251; 156; 137; 30; 50; 0; 177; 4; 210; 62; 10; 0; 156; 186; 184; 147; 184; 136; 102; 199; 6; 12; 0; 212;
  202; 199; 6; 14; 0; 201; 110; 208; 252; 156; 163; 52; 0; 208; 62; 13; 0; 156; 177; 7; 210; 250; 156; 137; 22; 54; 0;
  210; 62; 14; 0; 156; 184; 161; 123; 187; 232; 84; 199; 6; 16; 0; 170; 186; 199; 6; 18; 0; 49; 52; 209; 232; 156; 163;
  56; 0; 209; 46; 16; 0; 156; 185; 0; 1; 211; 235; 156; 137; 30; 58; 0; 185; 255; 255; 137; 218; 211; 234; 156; 137; 22;
  60; 0; 177; 4; 211; 235; 156; 137; 30; 62; 0; 177; 4; 210; 46; 18; 0; 156; 186; 16; 4; 184; 40; 22; 199; 6; 20; 0; 38;
  59; 199; 6; 22; 0; 13; 141; 208; 236; 156; 163; 64; 0; 208; 46; 21; 0; 156; 177; 7; 210; 234; 156; 137; 22; 66; 0;
  210; 46; 22; 0; 156; 244]); (65513, [0; 0; 0; 0; 0; 0; 0; 233; 13]); (65528, [0; 0; 0; 0; 0; 0; 0; 255])].
Definition t_shifts : list string :=
  [";00: 70 a6 e0 31 c0 66 80 64 5d 0f 02 74 d4 e5 ff 6e";
   ";10: 55 5d 03 34 26 1d 00 8d XX XX XX XX XX XX XX XX";
   ";20: 8a dd a8 b1 00 00 00 a8 93 84 80 95 b9 fd b9 df";
   ";30: ff ff fd fe 88 33 ff 93 d0 3d e8 54 00 00 4e 05";
   ";40: 28 0b 00 04 46 00 46 00 07 00 02 00 06 00 07 00";
   ";50: 46 00 06 08 06 08 03 00 87 00 86 00 82 00 06 00";
   ";60: 03 00 83 00 87 00 03 00 03 00 82 00 83 00 83 00";
   ";70: 06 00 86 08 83 00 87 00 46 00 82 08 82 08 82 08";
   ""]%string.
Example artlav_shifts : artlav i_shifts t_shifts = pass.
Proof. vm_compute. reflexivity. Qed.
(* strings.asm *)
Definition i_strings : list (Z * list Z) :=
  [(0, [185; 0; 240; 142; 217; 142; 193; 190; 0; 16; 191; 1; 32; 166; 156; 195]); (63, [0; 0; 0; 0; 0; 0; 0; 166; 156;
  195]); (123, [0; 0; 0; 0; 0; 0; 0; 166; 156; 195]); (144, [0; 0; 0; 0; 0; 0; 0; 166; 156; 195]); (2059, [0; 0; 0; 0;
  0; 0; 0; 167; 156; 195]); (2172, [0; 0; 0; 0; 0; 0; 0; 180; 16; 253; 172; 255; 224]); (4089, [0; 0; 0; 0; 0; 0; 0; 1;
  255; 255; 128; 2; 0; 194]); (4283, [0; 0; 0; 0; 0; 0; 0; 173; 255; 224]); (4857, [0; 0; 0; 0; 0; 0; 0; 137; 5; 142;
  194; 175; 116; 73]); (4937, [0; 0; 0; 0; 0; 0; 0; 176; 128; 253; 170; 255; 37]); (8186, [0; 0; 0; 0; 0; 0; 0; 2; 255;
  1; 1; 1; 128]); (32780, [0; 0; 0; 0; 0; 0; 0; 184; 0; 208; 171; 255; 101; 2]); (32955, [0; 0; 0; 0; 0; 0; 0; 142; 217;
  165; 142; 218; 255; 101; 2]); (33016, [0; 0; 0; 0; 0; 0; 0; 191; 2; 32; 142; 193; 252; 174; 159; 255; 224]); (49657,
  [0; 0; 0; 0; 0; 0; 0; 186; 0; 16; 142; 194; 191; 255; 255; 164; 142; 218; 198; 5; 194; 255; 37]); (53241, [0; 0; 0; 0;
  0; 0; 0; 186; 0; 0; 142; 218; 199; 6; 2; 0; 52; 18; 244]); (65513, [0; 0; 0; 0; 0; 0; 0; 233; 13]); (65528, [0; 0; 0;
  0; 0; 0; 0; 255])].
Definition t_strings : list string :=
  [";00: XX XX 34 12";
   ""]%string.
Example artlav_strings : artlav i_strings t_strings = pass.
Proof. vm_compute. reflexivity. Qed.
(* sub.asm *)
Definition i_sub : list (Z * list Z) :=
  [(0, [188; 160; 0; 184; 1; 0; 187; 2; 0; 41; 216; 163; 0; 0; 137; 30; 2; 0; 156; 186; 255; 255; 199; 6; 4; 0; 255;
  255; 41; 22; 4; 0; 137; 22; 6; 0; 156; 185; 255; 255; 199; 6; 8; 0; 1; 0; 43; 14; 8; 0; 137; 14; 10; 0; 156; 184; 0;
  128; 131; 232; 1; 163; 12; 0; 156; 189; 0; 128; 131; 237; 255; 137; 46; 14; 0; 156; 190; 129; 127; 129; 238; 60; 144;
  137; 54; 16; 0; 156; 199; 6; 18; 0; 195; 239; 129; 46; 18; 0; 100; 198; 156; 199; 6; 20; 0; 51; 233; 131; 46; 20; 0;
  100; 156; 198; 6; 22; 0; 1; 128; 46; 22; 0; 2; 156; 182; 255; 128; 238; 255; 137; 22; 23; 0; 156; 176; 255; 44; 1;
  163; 25; 0; 156; 198; 6; 27; 0; 128; 181; 1; 42; 46; 27; 0; 137; 14; 28; 0; 156; 179; 128; 198; 6; 30; 0; 127; 40; 30;
  30; 0; 137; 30; 31; 0; 156; 176; 188; 180; 142; 40; 196; 163; 33; 0; 156; 184; 1; 0; 187; 2; 0; 25; 195; 163; 35; 0;
  137; 30; 37; 0; 156; 186; 255; 255; 199; 6; 39; 0; 255; 255; 25; 22; 39; 0; 137; 22; 41; 0; 156; 185; 255; 255; 199;
  6; 43; 0; 1; 0; 27; 14; 43; 0; 137; 14; 45; 0; 156; 184; 0; 128; 131; 216; 1; 163; 47; 0; 156; 189; 0; 128; 131; 221;
  255; 137; 46; 49; 0; 156; 190; 195; 82; 129; 222; 72; 226; 137; 54; 51; 0; 156; 199; 6; 53; 0; 76; 231; 129; 30; 53;
  0; 192; 34; 156; 199; 6; 55; 0; 133; 253; 131; 30; 55; 0; 245; 156; 198; 6; 57; 0; 1; 128; 30; 57; 0; 2; 156; 182;
  255; 128; 222; 255; 137; 22; 58; 0; 156; 176; 255; 28; 1; 163; 60; 0; 156; 198; 6; 62; 0; 128; 181; 1; 26; 46; 62; 0;
  137; 14; 63; 0; 156; 179; 128; 198; 6; 65; 0; 255; 24; 30; 65; 0; 137; 30; 66; 0; 156; 176; 185; 180; 211; 24; 196;
  163; 68; 0; 156; 191; 0; 0; 79; 137; 62; 70; 0; 156; 189; 0; 128; 255; 205; 137; 46; 72; 0; 156; 199; 6; 74; 0; 18;
  116; 255; 14; 74; 0; 156; 178; 0; 254; 202; 137; 22; 76; 0; 156; 198; 6; 77; 0; 128; 254; 14; 77; 0; 156; 198; 6; 78;
  0; 181; 254; 14; 78; 0; 156; 244]); (65513, [0; 0; 0; 0; 0; 0; 0; 233; 13]); (65528, [0; 0; 0; 0; 0; 0; 0; 255])].
Definition t_sub : list string :=
  [";00: ff ff 02 00 00 00 ff ff  01 00 fe ff ff 7f 01 80";
   ";10: 45 ef 5f 29 cf e8 ff ff  00 fe 7f 80 fe 81 ff 80";
   ";20: 00 bc d2 01 00 00 00 00  00 ff ff 01 00 fe ff ff";
   ";30: 7f 01 80 7a 70 8b c4 90  fd fe ff ff fd 7f 80 fe";
   ";40: 81 7e 80 00 b9 1a ff ff  ff 7f 11 74 ff 7f b4 00";
   ";50: 00 00 00 00 00 00 00 00  00 00 00 00 86 00 12 08";
   ";60: 96 00 06 00 16 08 96 00  12 00 06 00 87 08 82 00";
   ";70: 97 00 93 00 87 00 86 00  13 00 93 00 16 08 82 00";
   ";80: 46 00 46 00 87 00 87 08  87 08 82 00 46 00 97 00";
   ";90: 96 00 16 00 93 08 93 00  16 08 82 00 46 00 97 00";
   "; ^ from qemu"]%string.
Example artlav_sub : artlav i_sub t_sub = pass.
Proof. vm_compute. reflexivity. Qed.
