(** * Checks of the instruction model on concrete vectors

    The expected values come from a separate transcription of the pseudo code of the
    Intel SDM that works on 128-bit integers, evaluated outside Coq on random and
    extreme vectors (negative and saturating lanes, masks with bit 7 set).  They also
    fix the operand order: Go writes the sources in the reverse of Intel's order.

    [x3 i a b t]: register X3 after [i] started with X1 = [a], X2 = [b] and BX
    pointing to the read-only bytes [t].  [ax i a]: register AX. *)
From stdpp Require Import prelude list.
From Coq Require Import ZArith.
From Verif Require Import Spec GoSem Shared Asm.
Local Open Scope Z_scope.

Definition start (a b t : list Z) : astate :=
  AState (fun r => match r with BX => PT t 0 | _ => VUndef end)
         (fun r => match r with X1 => a | X2 => b | _ => [] end) None.
Definition after (i : instr) (a b t : list Z) : option astate :=
  match exec1 [] 0 i (start a b t) with Ret s => Some s | _ => None end.
Definition x3 (i : instr) (a b t : list Z) : list Z := match after i a b t with Some s => xm s X3 | None => [] end.
Definition ax (i : instr) (a : list Z) : Z := match after i a [] [] with Some s => match gp s AX with VI z => z | _ => -1 end | None => -1 end.

Example VPMINUB_check :
  x3 (VPMINUB X2 X1 X3) [255; 127; 254; 255; 254; 255; 0; 128; 1; 0; 255; 255; 255; 0; 255; 255]
     [124; 222; 56; 45; 189; 19; 165; 189; 77; 158; 179; 87; 92; 172; 240; 32] [] =
     [124; 127; 56; 45; 189; 19; 0; 128; 1; 0; 179; 87; 92; 0; 240; 32] /\
  x3 (VPMINUB X2 X1 X3) [0; 1; 0; 0; 255; 255; 0; 128; 255; 255; 0; 128; 0; 0; 0; 1]
     [254; 255; 255; 0; 254; 0; 1; 0; 255; 0; 254; 0; 0; 0; 255; 127] [] =
     [0; 1; 0; 0; 254; 0; 0; 0; 255; 0; 0; 0; 0; 0; 0; 1] /\
  x3 (VPMINUB X2 X1 X3) [232; 163; 133; 66; 2; 61; 211; 224; 126; 196; 76; 55; 167; 24; 176; 161]
     [254; 127; 128; 0; 127; 255; 1; 127; 128; 128; 0; 254; 254; 254; 255; 128] [] =
     [232; 127; 128; 0; 2; 61; 1; 127; 126; 128; 0; 55; 167; 24; 176; 128] /\
  x3 (VPMINUB X2 X1 X3) [1; 127; 254; 127; 255; 255; 255; 254; 128; 128; 254; 255; 1; 255; 255; 1]
     [254; 128; 128; 128; 128; 128; 0; 127; 127; 0; 128; 1; 255; 0; 0; 127] [] =
     [1; 127; 128; 127; 128; 128; 0; 127; 127; 0; 128; 1; 1; 0; 0; 1].
Proof. by vm_compute. Qed.

Example VPACKUSWB_check :
  x3 (VPACKUSWB X2 X1 X3) [196; 190; 37; 52; 252; 167; 175; 123; 83; 109; 229; 231; 12; 235; 111; 99]
     [254; 255; 255; 0; 254; 255; 0; 1; 255; 0; 0; 0; 254; 255; 255; 0] [] =
     [0; 255; 0; 255; 255; 0; 0; 255; 0; 255; 0; 255; 255; 0; 0; 255] /\
  x3 (VPACKUSWB X2 X1 X3) [254; 254; 254; 1; 1; 128; 127; 128; 128; 1; 127; 254; 127; 1; 128; 0]
     [141; 6; 213; 247; 112; 5; 228; 149; 119; 251; 24; 3; 114; 204; 40; 46] [] =
     [0; 255; 0; 0; 255; 0; 255; 128; 255; 0; 255; 0; 0; 255; 0; 255] /\
  x3 (VPACKUSWB X2 X1 X3) [1; 0; 0; 128; 255; 127; 0; 128; 0; 128; 0; 0; 0; 1; 254; 0]
     [255; 254; 127; 0; 128; 254; 0; 127; 255; 0; 254; 128; 0; 255; 1; 1] [] =
     [1; 0; 255; 0; 0; 0; 255; 254; 0; 127; 0; 255; 255; 0; 0; 255] /\
  x3 (VPACKUSWB X2 X1 X3) [1; 255; 255; 1; 128; 254; 254; 128; 128; 254; 0; 1; 254; 0; 127; 1]
     [145; 54; 183; 0; 138; 45; 12; 233; 58; 117; 130; 245; 94; 3; 128; 86] [] =
     [0; 255; 0; 0; 0; 255; 254; 255; 255; 183; 255; 0; 255; 0; 255; 255].
Proof. by vm_compute. Qed.

Example VPMINSW_check :
  x3 (VPMINSW X2 X1 X3) [30; 64; 234; 154; 49; 158; 54; 113; 238; 177; 161; 54; 128; 125; 141; 123]
     [121; 221; 246; 50; 250; 174; 148; 75; 231; 37; 85; 38; 0; 219; 66; 183] [] =
     [121; 221; 234; 154; 49; 158; 148; 75; 238; 177; 85; 38; 0; 219; 66; 183] /\
  x3 (VPMINSW X2 X1 X3) [167; 150; 35; 232; 46; 228; 15; 25; 189; 77; 199; 83; 123; 97; 106; 99]
     [208; 79; 171; 24; 147; 174; 104; 162; 60; 42; 107; 147; 45; 137; 12; 72] [] =
     [167; 150; 35; 232; 147; 174; 104; 162; 60; 42; 107; 147; 45; 137; 12; 72] /\
  x3 (VPMINSW X2 X1 X3) [1; 1; 255; 0; 0; 128; 0; 0; 254; 0; 254; 0; 255; 127; 255; 0]
     [254; 255; 0; 128; 254; 0; 255; 0; 1; 1; 255; 255; 1; 0; 0; 0] [] =
     [254; 255; 0; 128; 0; 128; 0; 0; 254; 0; 255; 255; 1; 0; 0; 0] /\
  x3 (VPMINSW X2 X1 X3) [1; 0; 255; 0; 0; 1; 0; 128; 0; 128; 255; 255; 254; 0; 0; 1]
     [255; 128; 255; 128; 127; 255; 254; 128; 254; 1; 128; 127; 255; 0; 128; 127] [] =
     [255; 128; 255; 128; 127; 255; 0; 128; 0; 128; 255; 255; 254; 0; 0; 1].
Proof. by vm_compute. Qed.

Example VPADDUSW_check :
  x3 (VPADDUSW X2 X1 X3) [0; 1; 1; 0; 255; 0; 0; 1; 0; 128; 1; 1; 0; 0; 1; 1]
     [255; 255; 0; 0; 0; 0; 255; 127; 255; 0; 255; 255; 0; 0; 255; 255] [] =
     [255; 255; 1; 0; 255; 0; 255; 128; 255; 128; 255; 255; 0; 0; 255; 255] /\
  x3 (VPADDUSW X2 X1 X3) [184; 116; 254; 184; 21; 200; 217; 243; 148; 162; 84; 42; 10; 108; 44; 210]
     [228; 63; 172; 145; 108; 210; 229; 120; 49; 133; 177; 163; 231; 117; 201; 35] [] =
     [156; 180; 255; 255; 255; 255; 255; 255; 255; 255; 5; 206; 241; 225; 245; 245] /\
  x3 (VPADDUSW X2 X1 X3) [254; 255; 255; 0; 0; 0; 255; 255; 255; 255; 255; 0; 255; 255; 1; 1]
     [128; 254; 0; 0; 128; 254; 0; 127; 254; 1; 0; 128; 128; 127; 1; 127] [] =
     [255; 255; 255; 0; 128; 254; 255; 255; 255; 255; 255; 128; 255; 255; 2; 128] /\
  x3 (VPADDUSW X2 X1 X3) [1; 127; 255; 127; 128; 255; 1; 254; 128; 128; 127; 254; 254; 1; 254; 128]
     [0; 0; 128; 128; 254; 127; 1; 127; 1; 127; 254; 127; 128; 0; 254; 0] [] =
     [1; 127; 255; 255; 255; 255; 255; 255; 129; 255; 255; 255; 126; 2; 252; 129].
Proof. by vm_compute. Qed.

Example VPSUBD_check :
  x3 (VPSUBD X2 X1 X3) [0; 128; 1; 1; 127; 0; 128; 0; 254; 254; 127; 255; 1; 255; 1; 255]
     [255; 254; 127; 254; 254; 128; 128; 0; 254; 254; 1; 255; 1; 127; 127; 127] [] =
     [1; 129; 129; 2; 129; 127; 255; 255; 0; 0; 126; 0; 0; 128; 130; 127] /\
  x3 (VPSUBD X2 X1 X3) [255; 128; 0; 0; 127; 255; 254; 127; 1; 128; 0; 0; 128; 128; 127; 0]
     [1; 0; 255; 0; 255; 127; 255; 255; 255; 255; 255; 0; 1; 0; 0; 128] [] =
     [254; 128; 1; 255; 128; 127; 255; 127; 2; 128; 0; 255; 127; 128; 127; 128] /\
  x3 (VPSUBD X2 X1 X3) [255; 255; 0; 128; 255; 127; 255; 127; 255; 0; 0; 0; 255; 255; 255; 255]
     [0; 1; 255; 127; 254; 0; 0; 1; 1; 0; 0; 128; 1; 1; 1; 1] [] =
     [255; 254; 1; 0; 1; 127; 255; 126; 254; 0; 0; 128; 254; 254; 254; 254] /\
  x3 (VPSUBD X2 X1 X3) [254; 0; 0; 1; 0; 1; 0; 0; 254; 255; 0; 0; 255; 255; 0; 1]
     [253; 36; 181; 19; 196; 122; 164; 101; 190; 212; 139; 16; 202; 91; 170; 243] [] =
     [1; 220; 74; 237; 60; 134; 91; 154; 64; 43; 117; 239; 53; 164; 86; 13].
Proof. by vm_compute. Qed.

Example VPADDD_check :
  x3 (VPADDD X2 X1 X3) [128; 127; 255; 255; 0; 254; 1; 128; 255; 128; 0; 254; 0; 0; 127; 254]
     [254; 0; 1; 1; 0; 128; 255; 127; 255; 0; 255; 0; 1; 0; 255; 0] [] =
     [126; 128; 0; 1; 0; 126; 1; 0; 254; 129; 255; 254; 1; 0; 126; 255] /\
  x3 (VPADDD X2 X1 X3) [0; 0; 127; 255; 254; 0; 255; 1; 0; 255; 128; 0; 255; 1; 254; 1]
     [254; 0; 0; 255; 127; 254; 127; 127; 128; 254; 1; 127; 254; 0; 128; 128] [] =
     [254; 0; 127; 254; 125; 255; 126; 129; 128; 253; 130; 127; 253; 2; 126; 130] /\
  x3 (VPADDD X2 X1 X3) [0; 254; 255; 0; 127; 255; 254; 1; 1; 0; 255; 128; 254; 255; 127; 128]
     [254; 255; 0; 128; 0; 1; 255; 127; 255; 0; 0; 128; 0; 0; 255; 0] [] =
     [254; 253; 0; 129; 127; 0; 254; 129; 0; 1; 255; 0; 254; 255; 126; 129] /\
  x3 (VPADDD X2 X1 X3) [3; 146; 49; 16; 156; 112; 233; 240; 152; 217; 217; 45; 108; 169; 212; 87]
     [1; 1; 0; 128; 1; 0; 255; 0; 255; 0; 255; 127; 0; 128; 1; 0] [] =
     [4; 147; 49; 144; 157; 112; 232; 241; 151; 218; 216; 173; 108; 41; 214; 87].
Proof. by vm_compute. Qed.

Example VPMOVMSKB_check :
  ax (VPMOVMSKB X1 AX) [127; 127; 0; 0; 0; 128; 1; 255; 1; 254; 0; 127; 128; 128; 0; 0] = 12960 /\
  ax (VPMOVMSKB X1 AX) [1; 254; 0; 254; 254; 128; 0; 127; 0; 128; 1; 127; 0; 255; 255; 127] = 25146 /\
  ax (VPMOVMSKB X1 AX) [254; 0; 127; 128; 254; 1; 127; 0; 255; 127; 254; 127; 127; 0; 127; 128] = 34073 /\
  ax (VPMOVMSKB X1 AX) [154; 190; 233; 22; 183; 225; 181; 152; 207; 86; 76; 6; 210; 62; 12; 48] = 4599.
Proof. by vm_compute. Qed.

Example VPSHUFB_check :
  x3 (VPSHUFB_ld BX X1 X3) [98; 97; 82; 211; 154; 176; 208; 186; 67; 157; 66; 127; 114; 220; 106; 141] []
     [7; 142; 255; 255; 8; 255; 4; 165; 253; 255; 15; 87; 255; 102; 255; 255] =
     [186; 0; 0; 0; 67; 0; 154; 0; 0; 0; 141; 186; 0; 208; 0; 0] /\
  x3 (VPSHUFB_ld BX X1 X3) [254; 255; 0; 0; 254; 255; 0; 1; 254; 0; 254; 255; 0; 128; 1; 1] []
     [103; 4; 255; 255; 255; 255; 0; 255; 118; 60; 255; 255; 255; 29; 12; 239] =
     [1; 254; 0; 0; 0; 0; 254; 0; 0; 0; 0; 0; 0; 128; 0; 0] /\
  x3 (VPSHUFB_ld BX X1 X3) [255; 255; 255; 0; 254; 255; 0; 0; 255; 0; 255; 0; 1; 1; 0; 0] []
     [254; 255; 255; 127; 1; 0; 255; 127; 0; 1; 255; 255; 255; 255; 255; 255] =
     [0; 0; 0; 0; 255; 255; 0; 0; 255; 255; 0; 0; 0; 0; 0; 0] /\
  x3 (VPSHUFB_ld BX X1 X3) [254; 255; 255; 255; 255; 0; 0; 128; 255; 127; 254; 255; 1; 0; 255; 127] []
     [127; 1; 254; 1; 254; 0; 128; 127; 1; 254; 254; 127; 254; 1; 1; 128] =
     [127; 255; 0; 255; 0; 254; 0; 127; 255; 0; 0; 127; 0; 255; 255; 0].
Proof. by vm_compute. Qed.

Example VPALIGNR_check :
  x3 (VPALIGNR 0 X2 X1 X3) [1; 1; 254; 0; 0; 1; 255; 127; 0; 128; 1; 0; 255; 0; 0; 0]
     [1; 1; 1; 0; 0; 127; 254; 0; 254; 127; 0; 1; 127; 128; 254; 128] [] =
     [1; 1; 1; 0; 0; 127; 254; 0; 254; 127; 0; 1; 127; 128; 254; 128] /\
  x3 (VPALIGNR 1 X2 X1 X3) [128; 254; 1; 255; 255; 1; 0; 255; 1; 254; 255; 127; 128; 254; 127; 254]
     [198; 114; 44; 104; 50; 246; 250; 68; 133; 82; 30; 72; 183; 220; 50; 144] [] =
     [114; 44; 104; 50; 246; 250; 68; 133; 82; 30; 72; 183; 220; 50; 144; 128] /\
  x3 (VPALIGNR 12 X2 X1 X3) [207; 141; 74; 157; 197; 2; 240; 29; 129; 219; 136; 118; 132; 157; 32; 167]
     [255; 127; 0; 1; 255; 0; 1; 0; 1; 1; 254; 255; 254; 255; 1; 1] [] =
     [254; 255; 1; 1; 207; 141; 74; 157; 197; 2; 240; 29; 129; 219; 136; 118] /\
  x3 (VPALIGNR 15 X2 X1 X3) [254; 0; 255; 0; 128; 255; 254; 128; 128; 255; 1; 255; 254; 255; 1; 0]
     [39; 58; 156; 68; 110; 188; 229; 224; 199; 195; 162; 180; 15; 168; 73; 170] [] =
     [170; 254; 0; 255; 0; 128; 255; 254; 128; 128; 255; 1; 255; 254; 255; 1] /\
  x3 (VPALIGNR 16 X2 X1 X3) [232; 176; 242; 174; 98; 98; 170; 37; 215; 224; 172; 145; 232; 250; 137; 232]
     [254; 255; 0; 0; 255; 255; 254; 255; 0; 0; 255; 127; 0; 0; 1; 0] [] =
     [232; 176; 242; 174; 98; 98; 170; 37; 215; 224; 172; 145; 232; 250; 137; 232] /\
  x3 (VPALIGNR 20 X2 X1 X3) [108; 89; 76; 29; 189; 202; 180; 179; 89; 216; 27; 205; 154; 82; 165; 163]
     [254; 127; 254; 128; 0; 128; 254; 255; 128; 1; 1; 254; 1; 255; 128; 255] [] =
     [189; 202; 180; 179; 89; 216; 27; 205; 154; 82; 165; 163; 0; 0; 0; 0].
Proof. by vm_compute. Qed.

Example VPSLLDQ_check :
  x3 (VPSLLDQ 0 X1 X3) [254; 0; 0; 0; 0; 0; 254; 0; 255; 255; 0; 0; 254; 0; 255; 127] [] [] =
     [254; 0; 0; 0; 0; 0; 254; 0; 255; 255; 0; 0; 254; 0; 255; 127] /\
  x3 (VPSLLDQ 4 X1 X3) [255; 127; 0; 128; 1; 0; 254; 255; 0; 0; 0; 0; 1; 0; 255; 0] [] [] =
     [0; 0; 0; 0; 255; 127; 0; 128; 1; 0; 254; 255; 0; 0; 0; 0] /\
  x3 (VPSLLDQ 8 X1 X3) [1; 1; 254; 255; 0; 128; 254; 255; 254; 255; 254; 255; 0; 1; 1; 0] [] [] =
     [0; 0; 0; 0; 0; 0; 0; 0; 1; 1; 254; 255; 0; 128; 254; 255] /\
  x3 (VPSLLDQ 15 X1 X3) [0; 1; 255; 0; 0; 1; 255; 0; 255; 127; 255; 255; 0; 1; 255; 0] [] [] =
     [0; 0; 0; 0; 0; 0; 0; 0; 0; 0; 0; 0; 0; 0; 0; 0] /\
  x3 (VPSLLDQ 16 X1 X3) [255; 127; 254; 0; 1; 1; 255; 0; 255; 255; 0; 0; 255; 255; 1; 0] [] [] =
     [0; 0; 0; 0; 0; 0; 0; 0; 0; 0; 0; 0; 0; 0; 0; 0].
Proof. by vm_compute. Qed.

Example VPSHUFD_check :
  x3 (VPSHUFD 0 X1 X3) [128; 0; 0; 127; 255; 0; 255; 255; 254; 255; 1; 1; 128; 255; 127; 0] [] [] =
     [128; 0; 0; 127; 128; 0; 0; 127; 128; 0; 0; 127; 128; 0; 0; 127] /\
  x3 (VPSHUFD 27 X1 X3) [1; 1; 0; 0; 0; 128; 0; 1; 1; 1; 255; 0; 0; 128; 0; 128] [] [] =
     [0; 128; 0; 128; 1; 1; 255; 0; 0; 128; 0; 1; 1; 1; 0; 0] /\
  x3 (VPSHUFD 255 X1 X3) [128; 1; 128; 0; 0; 127; 0; 1; 128; 128; 254; 0; 127; 255; 127; 255] [] [] =
     [127; 255; 127; 255; 127; 255; 127; 255; 127; 255; 127; 255; 127; 255; 127; 255] /\
  x3 (VPSHUFD 78 X1 X3) [1; 128; 255; 255; 0; 128; 1; 1; 0; 0; 127; 255; 1; 128; 254; 0] [] [] =
     [0; 0; 127; 255; 1; 128; 254; 0; 1; 128; 255; 255; 0; 128; 1; 1] /\
  x3 (VPSHUFD 147 X1 X3) [128; 255; 254; 1; 128; 0; 1; 0; 0; 1; 127; 0; 1; 1; 255; 254] [] [] =
     [1; 1; 255; 254; 128; 255; 254; 1; 128; 0; 1; 0; 0; 1; 127; 0].
Proof. by vm_compute. Qed.

(** General purpose instructions: zero extension, truncation of shifts, results. *)
Definition g (i : instr) (v : Z) : option val :=
  match exec1 [(0, C64 (VI 7)); (8, C16 65535); (12, C32 (2 ^ 32 - 1))] 64 i (AState (fun r => match r with AX => VI v | _ => VI 1 end) (fun _ => []) None) with
  | Ret s => Some (gp s BX) | _ => None end.
Example MOV_check :
  g (MOVQ_arg 0 BX) 0 = Some (VI 7) /\ g (MOVWQZX_arg 8 BX) 0 = Some (VI 65535) /\
  g (MOVQ_arg 8 BX) 0 = None /\ g (MOVQ_arg 12 BX) 0 = None /\
  g (MOVQ AX BX) (2 ^ 64 - 1) = Some (VI (2 ^ 64 - 1)) /\
  g (MOVWQZX AX BX) (2 ^ 64 - 1) = Some (VI 65535) /\ g (MOVWQZX AX BX) 65536 = Some (VI 0) /\
  g (MOVBQZX AX BX) (2 ^ 64 - 1) = Some (VI 255) /\ g (MOVBQZX AX BX) 256 = Some (VI 0) /\
  g (ADDQ AX BX) (2 ^ 64 - 1) = Some (VI 0) /\ g (SHLQ 63 BX) 0 = Some (VI (2 ^ 63)) /\
  g (SHLQ 64 BX) 0 = Some (VI 0) /\ g (SHRQ 1 BX) 0 = Some (VI 0) /\
  g (MOVW_ret AX 62) 0 = None.
Proof. by vm_compute. Qed.
Example MOVW_ret_check :
  match exec1 [] 64 (MOVW_ret AX 64) (AState (fun _ => VI (2 ^ 64 - 2)) (fun _ => []) None) with
  | Ret s => aret s | _ => None end = Some 65534.
Proof. by vm_compute. Qed.
Example BROADCAST_check :
  x3 (VPBROADCASTW 32767 X3) [] [] [] = [255; 127; 255; 127; 255; 127; 255; 127; 255; 127; 255; 127; 255; 127; 255; 127] /\
  match exec1 [(48, C32 67305985)] 0 (VBROADCASTSS_arg 48 X3) (start [] [] []) with
  | Ret s => xm s X3 | _ => [] end = [1; 2; 3; 4; 1; 2; 3; 4; 1; 2; 3; 4; 1; 2; 3; 4].
Proof. by vm_compute. Qed.
(** 16-byte loads: the bytes of uint32 elements in little-endian order; no load across
    the end of a table; no access of uint32 elements at odd addresses. *)
Example load128_check :
  (exists k, load128 (PW 3 8) 16 = ReadW 3 6 k) /\ (exists k, load128 (PB 3 8) 16 = ReadB 3 24 k) /\
  load128 (PW 3 8) 2 = Fault /\
  load128 (PT (replicate 17 9) 1) 0 = Ret (replicate 16 9) /\ load128 (PT (replicate 17 9) 2) 0 = Fault.
Proof. split; [by eexists|]. split; [by eexists|]. by vm_compute. Qed.
(** The argument frame: every parameter aligned to its size, the result at the next multiple of 8. *)
Example layout_check :
  layout 0 [PU16 1; PSlice (VI 2) 3 4; PU32 5; PPtr (VI 6)] =
    ([(0, C16 1); (8, C64 (VI 2)); (16, C64 (VI 3)); (24, C64 (VI 4)); (32, C32 5); (40, C64 (VI 6))], 48) /\
  snd (layout 0 [PU32 1; PU16 2]) = 8.
Proof. by vm_compute. Qed.
