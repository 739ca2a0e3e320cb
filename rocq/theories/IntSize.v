(** * The functions on a platform whose int has [w] bits

    GoSem.v fixes int to 64 bits.  Here the functions of pkg/encode, pkg/decode,
    pkg/stream and pkg/util are written with the width as a parameter; lemmas [..N_64]: with 64 they
    are the functions of the model.  Functions not listed do not compute with ints. *)
From stdpp Require Import prelude list.
From Coq Require Import ZArith.
From Verif Require Import GoSem Tables Shared Asm Encode Decode Writer Reader Util IntOps.
Local Open Scope Z_scope.

Section width.
Variable w : Z.

(** encode.go:213-229.  [switch] with [fallthrough]: [cN] is the code executed
    when entering at case N. *)
Definition encodeOneN (num : Z) (out : slice) : prog Z :=
  let size := max 1 (isubN w 4 (idivN w (LeadingZeros32 num) 8)) in
  let c1 := setB out 0 (u8 num) in
  let c2 := setB out 1 (u8 (Z.shiftr num 8)) ;;; c1 in
  let c3 := setB out 2 (u8 (Z.shiftr num 16)) ;;; c2 in
  let c4 := setB out 3 (u8 (Z.shiftr num 24)) ;;; c3 in
  (if size =? 4 then c4 else if size =? 3 then c3 else if size =? 2 then c2
   else if size =? 1 then c1 else Ret tt) ;;;
  Ret size.

(** encode.go:54-76.  Loop variables: (i, ctrl, shift, total).  At most four
    iterations run, hence fuel 5. *)
Definition PutUint32ScalarN (inp out : slice) (count : Z) : prog Z :=
  if count =? 0 then Ret 0 else
  let count := if 4 <? count then 4 else count in
  let! st := while 5
    (fun '(i, ctrl, shift, total) => i <? count)
    (fun '(i, ctrl, shift, total) =>
       let! x := getW inp i in
       let! o := slice_from out total in
       let! size := encodeOneN x o in
       let total := iaddN w total size in
       let ctrl := Z.lor ctrl (u8 (Z.shiftl (u8 (isubN w size 1)) shift)) in
       let shift := iaddN w shift 2 in
       Ret (iaddN w i 1, ctrl, shift, total))
    (0, 0, 0, 0) in
  let '(_, ctrl, _, _) := st in Ret ctrl.

(** encode.go:83-106.  Loop variables: (i, ctrl, shift, total, prev). *)
Definition PutUint32DeltaScalarN (inp out : slice) (count prev : Z) : prog Z :=
  if count =? 0 then Ret 0 else
  let count := if 4 <? count then 4 else count in
  let! st := while 5
    (fun '(i, ctrl, shift, total, prev) => i <? count)
    (fun '(i, ctrl, shift, total, prev) =>
       let! x := getW inp i in
       let! o := slice_from out total in
       let! size := encodeOneN (u32 (x - prev)) o in
       let total := iaddN w total size in
       let ctrl := Z.lor ctrl (u8 (Z.shiftl (u8 (isubN w size 1)) shift)) in
       let shift := iaddN w shift 2 in
       let! prev := getW inp i in
       Ret (iaddN w i 1, ctrl, shift, total, prev))
    (0, 0, 0, 0, prev) in
  let '(_, ctrl, _, _, _) := st in Ret ctrl.

(** encode.go:150-165 *)
Definition Put4uint32ScalarN (inp out : slice) : prog Z :=
  check_idx inp 3 ;;;
  let! num0 := getW inp 0 in
  let! num1 := getW inp 1 in
  let! num2 := getW inp 2 in
  let! num3 := getW inp 3 in
  let! len0 := encodeOneN num0 out in
  let! o1 := slice_from out len0 in
  let! len1 := encodeOneN num1 o1 in
  let! o2 := slice_from out (iaddN w len0 len1) in
  let! len2 := encodeOneN num2 o2 in
  let! o3 := slice_from out (iaddN w (iaddN w len0 len1) len2) in
  let! len3 := encodeOneN num3 o3 in
  Ret (u8 (Z.lor (Z.lor (Z.lor (isubN w len0 1)
                               (iN w (Z.shiftl (isubN w len1 1) 2)))
                        (iN w (Z.shiftl (isubN w len2 1) 4)))
                 (iN w (Z.shiftl (isubN w len3 1) 6)))).

(** encode.go:114-121 *)
Definition Put8uint32ScalarN (inp out : slice) : prog Z :=
  let! first := Put4uint32ScalarN inp out in
  let ctrl := Z.lor 0 (u16 first) in
  let encoded := ControlByteToSize first in
  let! in4 := slice_from inp 4 in
  let! oute := slice_from out encoded in
  let! second := Put4uint32ScalarN in4 oute in
  Ret (Z.lor ctrl (u16 (Z.shiftl (u16 second) 8))).

(** encode.go:196-211 *)
Definition Put4uint32DeltaScalarN (inp out : slice) (prev : Z) : prog Z :=
  check_idx inp 3 ;;;
  let! a0 := getW inp 0 in
  let num0 := u32 (a0 - prev) in
  let! a1 := getW inp 1 in
  let! a0' := getW inp 0 in
  let num1 := u32 (a1 - a0') in
  let! a2 := getW inp 2 in
  let! a1' := getW inp 1 in
  let num2 := u32 (a2 - a1') in
  let! a3 := getW inp 3 in
  let! a2' := getW inp 2 in
  let num3 := u32 (a3 - a2') in
  let! len0 := encodeOneN num0 out in
  let! o1 := slice_from out len0 in
  let! len1 := encodeOneN num1 o1 in
  let! o2 := slice_from out (iaddN w len0 len1) in
  let! len2 := encodeOneN num2 o2 in
  let! o3 := slice_from out (iaddN w (iaddN w len0 len1) len2) in
  let! len3 := encodeOneN num3 o3 in
  Ret (u8 (Z.lor (Z.lor (Z.lor (isubN w len0 1)
                               (iN w (Z.shiftl (isubN w len1 1) 2)))
                        (iN w (Z.shiftl (isubN w len2 1) 4)))
                 (iN w (Z.shiftl (isubN w len3 1) 6)))).

(** encode.go:177-184 *)
Definition Put8uint32DeltaScalarN (inp out : slice) (prev : Z) : prog Z :=
  let! first := Put4uint32DeltaScalarN inp out prev in
  let ctrl := Z.lor 0 (u16 first) in
  let encoded := ControlByteToSize first in
  let! in4 := slice_from inp 4 in
  let! oute := slice_from out encoded in
  let! p := getW inp 3 in
  let! second := Put4uint32DeltaScalarN in4 oute p in
  Ret (Z.lor ctrl (u16 (Z.shiftl (u16 second) 8))).

(** encode.go:13-38: [putImpl] is chosen once by [init]. *)
Definition Put8uint32N (a : arch) (inp out : slice) : prog Z :=
  match encGetMode a with
  | Fast => Put8uint32Fast a inp out
  | Normal => Put8uint32ScalarN inp out
  end.

(** encode.go:21-29, 45-47 *)
Definition Put8uint32DeltaN (a : arch) (inp out : slice) (prev : Z) : prog Z :=
  match encGetMode a with
  | Fast => Put8uint32DeltaFast a inp out prev
  | Normal => Put8uint32DeltaScalarN inp out prev
  end.

(** decode.go:82-101.  Loop variables: (i, shift, total). *)
Definition GetUint32ScalarN (inp out : slice) (ctrl count : Z) : prog Z :=
  if count =? 0 then Ret 0 else
  let count := if 4 <? count then 4 else count in
  let! st := while 5
    (fun '(i, shift, total) => i <? count)
    (fun '(i, shift, total) =>
       let size := u8 (Z.land (Z.shiftr ctrl shift) 3 + 1) in
       let! it := slice_from inp total in
       let! v := decodeOne it size in
       setW out i v ;;;
       Ret (iaddN w i 1, iaddN w shift 2, iaddN w total size))
    (0, 0, 0) in
  let '(_, _, total) := st in Ret total.

(** decode.go:109-130.  Loop variables: (i, shift, total, prev). *)
Definition GetUint32DeltaScalarN (inp out : slice) (ctrl count prev : Z) : prog Z :=
  if count =? 0 then Ret 0 else
  let count := if 4 <? count then 4 else count in
  let! st := while 5
    (fun '(i, shift, total, prev) => i <? count)
    (fun '(i, shift, total, prev) =>
       let size := u8 (Z.land (Z.shiftr ctrl shift) 3 + 1) in
       let! it := slice_from inp total in
       let! v := decodeOne it size in
       let num := u32 (v + prev) in
       setW out i num ;;;
       Ret (iaddN w i 1, iaddN w shift 2, iaddN w total size, num))
    (0, 0, 0, prev) in
  let '(_, _, total, _) := st in Ret total.

(** ** Writers *)

(** writer.go:39-95.  Loop variables: (dataPos, ctrlPos, encoded). *)
Definition WriteAllScalarN (blk : nat) (inp : slice) : prog slice :=
  let count := s_len inp in
  let ctrlLen := idivN w (iaddN w count 3) 4 in
  let! stream := makeB blk (iaddN w ctrlLen (imulN w MaxBytesPerNum count)) in
  let lowestJump := iandnot count (isubN w Writer.jump 1) in
  let lowest4 := iandnot count 3 in
  let! st := while (wfuel inp)
    (fun '(dataPos, ctrlPos, encoded) => encoded <? lowestJump)
    (fun '(dataPos, ctrlPos, encoded) =>
       let! nums := slice_range inp encoded (iaddN w encoded Writer.jump) in
       let! data := slice_from stream dataPos in
       let! ctrls := slice_range stream ctrlPos (iaddN w ctrlPos Writer.jumpCtrl) in
       let! ctrl := Put4uint32ScalarN nums data in
       setB ctrls 0 ctrl ;;;
       let sizeA := ControlByteToSize ctrl in
       let! n4 := slice_from nums 4 in
       let! dA := slice_from data sizeA in
       let! ctrl := Put4uint32ScalarN n4 dA in
       setB ctrls 1 ctrl ;;;
       let sizeB := ControlByteToSize ctrl in
       let! n8 := slice_from nums 8 in
       let! dB := slice_from data (iaddN w sizeA sizeB) in
       let! ctrl := Put4uint32ScalarN n8 dB in
       setB ctrls 2 ctrl ;;;
       let sizeC := ControlByteToSize ctrl in
       let! n12 := slice_from nums 12 in
       let! dC := slice_from data (iaddN w (iaddN w sizeA sizeB) sizeC) in
       let! ctrl := Put4uint32ScalarN n12 dC in
       setB ctrls 3 ctrl ;;;
       let sizeD := ControlByteToSize ctrl in
       Ret (iaddN w dataPos (iaddN w (iaddN w (iaddN w sizeA sizeB) sizeC) sizeD),
            iaddN w ctrlPos Writer.jumpCtrl, iaddN w encoded Writer.jump))
    (ctrlLen, 0, 0) in
  let! st := while (wfuel inp)
    (fun '(dataPos, ctrlPos, encoded) => encoded <? lowest4)
    (fun '(dataPos, ctrlPos, encoded) =>
       let! ine := slice_from inp encoded in
       let! data := slice_from stream dataPos in
       let! ctrl := Put4uint32ScalarN ine data in
       setB stream ctrlPos ctrl ;;;
       let size := ControlByteToSize ctrl in
       Ret (iaddN w dataPos size, iaddN w ctrlPos 1, iaddN w encoded 4))
    st in
  let '(dataPos, ctrlPos, encoded) := st in
  let! dataPos :=
    if negb (lowest4 =? count) then
      let nums := isubN w count lowest4 in
      let! ine := slice_from inp encoded in
      let! data := slice_from stream dataPos in
      let! ctrl := PutUint32ScalarN ine data nums in
      let size := ControlByteToSize ctrl in
      let size := isubN w size (isubN w 4 nums) in
      let dataPos := iaddN w dataPos size in
      setB stream ctrlPos ctrl ;;;
      Ret dataPos
    else Ret dataPos in
  slice_to stream dataPos.

(** writer.go:99-157.  Loop variables: (dataPos, ctrlPos, encoded, prev). *)
Definition WriteAllDeltaScalarN (blk : nat) (inp : slice) (prev : Z) : prog slice :=
  let count := s_len inp in
  let ctrlLen := idivN w (iaddN w count 3) 4 in
  let! stream := makeB blk (iaddN w ctrlLen (imulN w MaxBytesPerNum count)) in
  let lowestJump := iandnot count (isubN w Writer.jump 1) in
  let lowest4 := iandnot count 3 in
  let! st := while (wfuel inp)
    (fun '(dataPos, ctrlPos, encoded, prev) => encoded <? lowestJump)
    (fun '(dataPos, ctrlPos, encoded, prev) =>
       let! nums := slice_range inp encoded (iaddN w encoded Writer.jump) in
       let! data := slice_from stream dataPos in
       let! ctrls := slice_range stream ctrlPos (iaddN w ctrlPos Writer.jumpCtrl) in
       let! ctrl := Put4uint32DeltaScalarN nums data prev in
       setB ctrls 0 ctrl ;;;
       let sizeA := ControlByteToSize ctrl in
       let! n4 := slice_from nums 4 in
       let! dA := slice_from data sizeA in
       let! p := getW nums 3 in
       let! ctrl := Put4uint32DeltaScalarN n4 dA p in
       setB ctrls 1 ctrl ;;;
       let sizeB := ControlByteToSize ctrl in
       let! n8 := slice_from nums 8 in
       let! dB := slice_from data (iaddN w sizeA sizeB) in
       let! p := getW nums 7 in
       let! ctrl := Put4uint32DeltaScalarN n8 dB p in
       setB ctrls 2 ctrl ;;;
       let sizeC := ControlByteToSize ctrl in
       let! n12 := slice_from nums 12 in
       let! dC := slice_from data (iaddN w (iaddN w sizeA sizeB) sizeC) in
       let! p := getW nums 11 in
       let! ctrl := Put4uint32DeltaScalarN n12 dC p in
       setB ctrls 3 ctrl ;;;
       let sizeD := ControlByteToSize ctrl in
       let! prev := getW nums 15 in
       Ret (iaddN w dataPos (iaddN w (iaddN w (iaddN w sizeA sizeB) sizeC) sizeD),
            iaddN w ctrlPos Writer.jumpCtrl, iaddN w encoded Writer.jump, prev))
    (ctrlLen, 0, 0, prev) in
  let! st := while (wfuel inp)
    (fun '(dataPos, ctrlPos, encoded, prev) => encoded <? lowest4)
    (fun '(dataPos, ctrlPos, encoded, prev) =>
       let! ine := slice_from inp encoded in
       let! data := slice_from stream dataPos in
       let! ctrl := Put4uint32DeltaScalarN ine data prev in
       setB stream ctrlPos ctrl ;;;
       let size := ControlByteToSize ctrl in
       let! prev := getW inp (iaddN w encoded 3) in
       Ret (iaddN w dataPos size, iaddN w ctrlPos 1, iaddN w encoded 4, prev))
    st in
  let '(dataPos, ctrlPos, encoded, prev) := st in
  let! dataPos :=
    if negb (lowest4 =? count) then
      let nums := isubN w count lowest4 in
      let! ine := slice_from inp encoded in
      let! data := slice_from stream dataPos in
      let! ctrl := PutUint32DeltaScalarN ine data nums prev in
      let size := ControlByteToSize ctrl in
      let size := isubN w size (isubN w 4 nums) in
      let dataPos := iaddN w dataPos size in
      setB stream ctrlPos ctrl ;;;
      Ret dataPos
    else Ret dataPos in
  slice_to stream dataPos.

(** writer_amd64.go:13-106 / writer_base.go:5-7.
    Loop variables: (dataPos, ctrlPos, encoded). *)
Definition WriteAllFastN (a : arch) (blk : nat) (inp : slice) : prog slice :=
  match a with
  | OtherArch => GoPanic
  | AMD64 _ _ =>
  let count := s_len inp in
  let ctrlLen := idivN w (iaddN w count 3) 4 in
  let! stream := makeB blk (iaddN w ctrlLen (imulN w MaxBytesPerNum count)) in
  let lowest32 := iandnot (imulN w (isubN w ctrlLen 3) 4) 31 in
  let! st := while (wfuel inp)
    (fun '(dataPos, ctrlPos, encoded) => encoded <? lowest32)
    (fun '(dataPos, ctrlPos, encoded) =>
       let! ctrls := slice_range stream ctrlPos (iaddN w ctrlPos 8) in
       let! nums := slice_range inp encoded (iaddN w encoded 32) in
       let! out := slice_from stream dataPos in
       let! n0 := slice_range nums 0 8 in
       let! ctrl := Put8uint32FastAsm a n0 out EncodeShuffleTable PerControlLenTable in
       setB ctrls 0 (u8 (Z.land ctrl 255)) ;;;
       setB ctrls 1 (u8 (Z.shiftr ctrl 8)) ;;;
       let sizeA := ControlByteToSizeTwo ctrl in
       let! n8 := slice_range nums 8 16 in
       let! oA := slice_from out sizeA in
       let! ctrl := Put8uint32FastAsm a n8 oA EncodeShuffleTable PerControlLenTable in
       setB ctrls 2 (u8 (Z.land ctrl 255)) ;;;
       setB ctrls 3 (u8 (Z.shiftr ctrl 8)) ;;;
       let sizeB := ControlByteToSizeTwo ctrl in
       let! n16 := slice_range nums 16 24 in
       let! oB := slice_from out (iaddN w sizeA sizeB) in
       let! ctrl := Put8uint32FastAsm a n16 oB EncodeShuffleTable PerControlLenTable in
       setB ctrls 4 (u8 (Z.land ctrl 255)) ;;;
       setB ctrls 5 (u8 (Z.shiftr ctrl 8)) ;;;
       let sizeC := ControlByteToSizeTwo ctrl in
       let! n24 := slice_from nums 24 in
       let! oC := slice_from out (iaddN w (iaddN w sizeA sizeB) sizeC) in
       let! ctrl := Put8uint32FastAsm a n24 oC EncodeShuffleTable PerControlLenTable in
       setB ctrls 6 (u8 (Z.land ctrl 255)) ;;;
       setB ctrls 7 (u8 (Z.shiftr ctrl 8)) ;;;
       let sizeD := ControlByteToSizeTwo ctrl in
       Ret (iaddN w dataPos (iaddN w (iaddN w (iaddN w sizeA sizeB) sizeC) sizeD),
            iaddN w ctrlPos 8, iaddN w encoded 32))
    (ctrlLen, 0, 0) in
  let! st := while (wfuel inp)
    (fun '(dataPos, ctrlPos, encoded) => ctrlPos <? isubN w ctrlLen 2)
    (fun '(dataPos, ctrlPos, encoded) =>
       let! ine := slice_from inp encoded in
       let! data := slice_from stream dataPos in
       let! ctrl := Put8uint32FastAsm a ine data EncodeShuffleTable PerControlLenTable in
       setB stream ctrlPos (u8 (Z.land ctrl 255)) ;;;
       setB stream (iaddN w ctrlPos 1) (u8 (Z.shiftr ctrl 8)) ;;;
       Ret (iaddN w dataPos (ControlByteToSizeTwo ctrl), iaddN w ctrlPos 2, iaddN w encoded 8))
    st in
  let! st := while (wfuel inp)
    (fun '(dataPos, ctrlPos, encoded) => ctrlPos <? ctrlLen)
    (fun '(dataPos, ctrlPos, encoded) =>
       let nums := isubN w count encoded in
       let nums := if 4 <? nums then 4 else nums in
       let! ine := slice_from inp encoded in
       let! data := slice_from stream dataPos in
       let! ctrl := PutUint32ScalarN ine data nums in
       let size := ControlByteToSize ctrl in
       setB stream ctrlPos ctrl ;;;
       let size := isubN w size (isubN w 4 nums) in
       Ret (iaddN w dataPos size, iaddN w ctrlPos 1, iaddN w encoded nums))
    st in
  let '(dataPos, _, _) := st in
  slice_to stream dataPos
  end.

(** writer_amd64.go:111-212.  (writer_base.go has no counterpart, see Build.v;
    on other architectures it is modelled as a panic.)
    Loop variables: (dataPos, ctrlPos, encoded, prev). *)
Definition WriteAllDeltaFastN (a : arch) (blk : nat) (inp : slice) (prev : Z) : prog slice :=
  match a with
  | OtherArch => GoPanic
  | AMD64 _ _ =>
  let count := s_len inp in
  let ctrlLen := idivN w (iaddN w count 3) 4 in
  let! stream := makeB blk (iaddN w ctrlLen (imulN w MaxBytesPerNum count)) in
  let lowest32 := iandnot (imulN w (isubN w ctrlLen 3) 4) 31 in
  let! st := while (wfuel inp)
    (fun '(dataPos, ctrlPos, encoded, prev) => encoded <? lowest32)
    (fun '(dataPos, ctrlPos, encoded, prev) =>
       let! ctrls := slice_range stream ctrlPos (iaddN w ctrlPos 8) in
       let! nums := slice_range inp encoded (iaddN w encoded 32) in
       let! out := slice_from stream dataPos in
       let! n0 := slice_range nums 0 8 in
       let! ctrl := Put8uint32DeltaFastAsm a n0 out prev EncodeShuffleTable PerControlLenTable in
       setB ctrls 0 (u8 (Z.land ctrl 255)) ;;;
       setB ctrls 1 (u8 (Z.shiftr ctrl 8)) ;;;
       let sizeA := ControlByteToSizeTwo ctrl in
       let! n8 := slice_range nums 8 16 in
       let! oA := slice_from out sizeA in
       let! p := getW nums 7 in
       let! ctrl := Put8uint32DeltaFastAsm a n8 oA p EncodeShuffleTable PerControlLenTable in
       setB ctrls 2 (u8 (Z.land ctrl 255)) ;;;
       setB ctrls 3 (u8 (Z.shiftr ctrl 8)) ;;;
       let sizeB := ControlByteToSizeTwo ctrl in
       let! n16 := slice_range nums 16 24 in
       let! oB := slice_from out (iaddN w sizeA sizeB) in
       let! p := getW nums 15 in
       let! ctrl := Put8uint32DeltaFastAsm a n16 oB p EncodeShuffleTable PerControlLenTable in
       setB ctrls 4 (u8 (Z.land ctrl 255)) ;;;
       setB ctrls 5 (u8 (Z.shiftr ctrl 8)) ;;;
       let sizeC := ControlByteToSizeTwo ctrl in
       let! n24 := slice_from nums 24 in
       let! oC := slice_from out (iaddN w (iaddN w sizeA sizeB) sizeC) in
       let! p := getW nums 23 in
       let! ctrl := Put8uint32DeltaFastAsm a n24 oC p EncodeShuffleTable PerControlLenTable in
       setB ctrls 6 (u8 (Z.land ctrl 255)) ;;;
       setB ctrls 7 (u8 (Z.shiftr ctrl 8)) ;;;
       let sizeD := ControlByteToSizeTwo ctrl in
       let! prev := getW nums 31 in
       Ret (iaddN w dataPos (iaddN w (iaddN w (iaddN w sizeA sizeB) sizeC) sizeD),
            iaddN w ctrlPos 8, iaddN w encoded 32, prev))
    (ctrlLen, 0, 0, prev) in
  let! st := while (wfuel inp)
    (fun '(dataPos, ctrlPos, encoded, prev) => ctrlPos <? isubN w ctrlLen 2)
    (fun '(dataPos, ctrlPos, encoded, prev) =>
       let! ine := slice_from inp encoded in
       let! data := slice_from stream dataPos in
       let! ctrl := Put8uint32DeltaFastAsm a ine data prev EncodeShuffleTable PerControlLenTable in
       setB stream ctrlPos (u8 (Z.land ctrl 255)) ;;;
       setB stream (iaddN w ctrlPos 1) (u8 (Z.shiftr ctrl 8)) ;;;
       let encoded := iaddN w encoded 8 in
       let dataPos := iaddN w dataPos (ControlByteToSizeTwo ctrl) in
       let! prev := getW inp (isubN w encoded 1) in
       Ret (dataPos, iaddN w ctrlPos 2, encoded, prev))
    st in
  let! st := while (wfuel inp)
    (fun '(dataPos, ctrlPos, encoded, prev) => ctrlPos <? ctrlLen)
    (fun '(dataPos, ctrlPos, encoded, prev) =>
       let nums := isubN w count encoded in
       let nums := if 4 <? nums then 4 else nums in
       let! ine := slice_from inp encoded in
       let! data := slice_from stream dataPos in
       let! ctrl := PutUint32DeltaScalarN ine data nums prev in
       let size := ControlByteToSize ctrl in
       setB stream ctrlPos ctrl ;;;
       let size := isubN w size (isubN w 4 nums) in
       let dataPos := iaddN w dataPos size in
       let encoded := iaddN w encoded nums in
       let! prev := getW inp (isubN w encoded 1) in
       Ret (dataPos, iaddN w ctrlPos 1, encoded, prev))
    st in
  let '(dataPos, _, _, _) := st in
  slice_to stream dataPos
  end.

(** writer.go:17-23 *)
Definition WriteAllN (a : arch) (blk : nat) (inp : slice) : prog slice :=
  match encGetMode a with
  | Fast => WriteAllFastN a blk inp
  | Normal => WriteAllScalarN blk inp
  end.

(** writer.go:29-35 *)
Definition WriteAllDeltaN (a : arch) (blk : nat) (inp : slice) (prev : Z) : prog slice :=
  match encGetMode a with
  | Fast => WriteAllDeltaFastN a blk inp prev
  | Normal => WriteAllDeltaScalarN blk inp prev
  end.

(** ** Readers *)

(** reader.go:50-97.  Loop variables: (dataPos, ctrlPos, decoded). *)
Definition ReadAllScalarN (count : Z) (stream out : slice) : prog unit :=
  let ctrlLen := idivN w (iaddN w count 3) 4 in
  let lowestJump := iandnot count (isubN w Reader.jump 1) in
  let lowest4 := iandnot count 3 in
  let! st := while (rfuel stream out)
    (fun '(dataPos, ctrlPos, decoded) => decoded <? lowestJump)
    (fun '(dataPos, ctrlPos, decoded) =>
       let! data := slice_from stream dataPos in
       let! ctrls := slice_range stream ctrlPos (iaddN w ctrlPos Reader.jumpCtrl) in
       let! nums := slice_range out decoded (iaddN w decoded Reader.jump) in
       let! ctrl := getB ctrls 0 in
       Get4uint32Scalar data nums ctrl ;;;
       let sizeA := ControlByteToSize ctrl in
       let! ctrl := getB ctrls 1 in
       let! dA := slice_from data sizeA in
       let! n4 := slice_from nums 4 in
       Get4uint32Scalar dA n4 ctrl ;;;
       let sizeB := ControlByteToSize ctrl in
       let! ctrl := getB ctrls 2 in
       let! dB := slice_from data (iaddN w sizeA sizeB) in
       let! n8 := slice_from nums 8 in
       Get4uint32Scalar dB n8 ctrl ;;;
       let sizeC := ControlByteToSize ctrl in
       let! ctrl := getB ctrls 3 in
       let! dC := slice_from data (iaddN w (iaddN w sizeA sizeB) sizeC) in
       let! n12 := slice_from nums 12 in
       Get4uint32Scalar dC n12 ctrl ;;;
       let sizeD := ControlByteToSize ctrl in
       Ret (iaddN w dataPos (iaddN w (iaddN w (iaddN w sizeA sizeB) sizeC) sizeD),
            iaddN w ctrlPos Reader.jumpCtrl, iaddN w decoded Reader.jump))
    (ctrlLen, 0, 0) in
  let! st := while (rfuel stream out)
    (fun '(dataPos, ctrlPos, decoded) => decoded <? lowest4)
    (fun '(dataPos, ctrlPos, decoded) =>
       let! ctrl := getB stream ctrlPos in
       let! data := slice_from stream dataPos in
       let! o := slice_from out decoded in
       Get4uint32Scalar data o ctrl ;;;
       let size := ControlByteToSize ctrl in
       Ret (iaddN w dataPos size, iaddN w ctrlPos 1, iaddN w decoded 4))
    st in
  let '(dataPos, ctrlPos, decoded) := st in
  if negb (lowest4 =? count) then
    let! data := slice_from stream dataPos in
    let! o := slice_from out decoded in
    let! ctrl := getB stream ctrlPos in
    GetUint32ScalarN data o ctrl (isubN w count lowest4) ;;; Ret tt
  else Ret tt.

(** reader.go:106-155.  Loop variables: (dataPos, ctrlPos, decoded, prev). *)
Definition ReadAllDeltaScalarN (count : Z) (stream out : slice) (prev : Z) : prog unit :=
  let ctrlLen := idivN w (iaddN w count 3) 4 in
  let lowestJump := iandnot count (isubN w Reader.jump 1) in
  let lowest4 := iandnot count 3 in
  let! st := while (rfuel stream out)
    (fun '(dataPos, ctrlPos, decoded, prev) => decoded <? lowestJump)
    (fun '(dataPos, ctrlPos, decoded, prev) =>
       let! data := slice_from stream dataPos in
       let! ctrls := slice_range stream ctrlPos (iaddN w ctrlPos Reader.jumpCtrl) in
       let! nums := slice_range out decoded (iaddN w decoded Reader.jump) in
       let! ctrl := getB ctrls 0 in
       Get4uint32DeltaScalar data nums ctrl prev ;;;
       let sizeA := ControlByteToSize ctrl in
       let! ctrl := getB ctrls 1 in
       let! dA := slice_from data sizeA in
       let! n4 := slice_from nums 4 in
       let! p := getW nums 3 in
       Get4uint32DeltaScalar dA n4 ctrl p ;;;
       let sizeB := ControlByteToSize ctrl in
       let! ctrl := getB ctrls 2 in
       let! dB := slice_from data (iaddN w sizeA sizeB) in
       let! n8 := slice_from nums 8 in
       let! p := getW nums 7 in
       Get4uint32DeltaScalar dB n8 ctrl p ;;;
       let sizeC := ControlByteToSize ctrl in
       let! ctrl := getB ctrls 3 in
       let! dC := slice_from data (iaddN w (iaddN w sizeA sizeB) sizeC) in
       let! n12 := slice_from nums 12 in
       let! p := getW nums 11 in
       Get4uint32DeltaScalar dC n12 ctrl p ;;;
       let sizeD := ControlByteToSize ctrl in
       let! prev := getW nums 15 in
       Ret (iaddN w dataPos (iaddN w (iaddN w (iaddN w sizeA sizeB) sizeC) sizeD),
            iaddN w ctrlPos Reader.jumpCtrl, iaddN w decoded Reader.jump, prev))
    (ctrlLen, 0, 0, prev) in
  let! st := while (rfuel stream out)
    (fun '(dataPos, ctrlPos, decoded, prev) => decoded <? lowest4)
    (fun '(dataPos, ctrlPos, decoded, prev) =>
       let! ctrl := getB stream ctrlPos in
       let! data := slice_from stream dataPos in
       let! o := slice_from out decoded in
       Get4uint32DeltaScalar data o ctrl prev ;;;
       let size := ControlByteToSize ctrl in
       let! prev := getW out (iaddN w decoded 3) in
       Ret (iaddN w dataPos size, iaddN w ctrlPos 1, iaddN w decoded 4, prev))
    st in
  let '(dataPos, ctrlPos, decoded, prev) := st in
  if negb (lowest4 =? count) then
    let! data := slice_from stream dataPos in
    let! o := slice_from out decoded in
    let! ctrl := getB stream ctrlPos in
    GetUint32DeltaScalarN data o ctrl (isubN w count lowest4) prev ;;; Ret tt
  else Ret tt.

(** reader_amd64.go:16-117 / reader_base.go:5-7.
    Loop variables: (dataPos, ctrlPos, decoded). *)
Definition ReadAllFastN (a : arch) (count : Z) (stream out : slice) : prog unit :=
  match a with
  | OtherArch => GoPanic
  | AMD64 _ _ =>
  let dataPos := idivN w (iaddN w count 3) 4 in
  let ctrlLen := dataPos in
  let lowest32 := iandnot (imulN w (isubN w ctrlLen 3) 4) 31 in
  let! st := while (rfuel stream out)
    (fun '(dataPos, ctrlPos, decoded) => decoded <? lowest32)
    (fun '(dataPos, ctrlPos, decoded) =>
       let! data := slice_from stream dataPos in
       let! ctrls := slice_range stream ctrlPos (iaddN w ctrlPos 8) in
       let! nums := slice_range out decoded (iaddN w decoded 32) in
       let! c0 := getB ctrls 0 in
       let! c1 := getB ctrls 1 in
       Get8uint32FastAsm a data nums (ctrl16 c0 c1) DecodeShuffleTable PerControlLenTable ;;;
       let! c0 := getB ctrls 0 in
       let! c1 := getB ctrls 1 in
       let sizeA := iaddN w (ControlByteToSize c0) (ControlByteToSize c1) in
       let! c2 := getB ctrls 2 in
       let! c3 := getB ctrls 3 in
       let! dA := slice_from data sizeA in
       let! n8 := slice_from nums 8 in
       Get8uint32FastAsm a dA n8 (ctrl16 c2 c3) DecodeShuffleTable PerControlLenTable ;;;
       let! c2 := getB ctrls 2 in
       let! c3 := getB ctrls 3 in
       let sizeB := iaddN w (ControlByteToSize c2) (ControlByteToSize c3) in
       let! c4 := getB ctrls 4 in
       let! c5 := getB ctrls 5 in
       let! dB := slice_from data (iaddN w sizeA sizeB) in
       let! n16 := slice_from nums 16 in
       Get8uint32FastAsm a dB n16 (ctrl16 c4 c5) DecodeShuffleTable PerControlLenTable ;;;
       let! c4 := getB ctrls 4 in
       let! c5 := getB ctrls 5 in
       let sizeC := iaddN w (ControlByteToSize c4) (ControlByteToSize c5) in
       let! c6 := getB ctrls 6 in
       let! c7 := getB ctrls 7 in
       let! dC := slice_from data (iaddN w (iaddN w sizeA sizeB) sizeC) in
       let! n24 := slice_from nums 24 in
       Get8uint32FastAsm a dC n24 (ctrl16 c6 c7) DecodeShuffleTable PerControlLenTable ;;;
       let! c6 := getB ctrls 6 in
       let! c7 := getB ctrls 7 in
       let sizeD := iaddN w (ControlByteToSize c6) (ControlByteToSize c7) in
       Ret (iaddN w dataPos (iaddN w (iaddN w (iaddN w sizeA sizeB) sizeC) sizeD),
            iaddN w ctrlPos 8, iaddN w decoded 32))
    (dataPos, 0, 0) in
  let! st := while (rfuel stream out)
    (fun '(dataPos, ctrlPos, decoded) => ctrlPos <? isubN w ctrlLen 4)
    (fun '(dataPos, ctrlPos, decoded) =>
       let! c0 := getB stream ctrlPos in
       let! c1 := getB stream (iaddN w ctrlPos 1) in
       let! data := slice_from stream dataPos in
       let! o := slice_from out decoded in
       Get8uint32FastAsm a data o (ctrl16 c0 c1) DecodeShuffleTable PerControlLenTable ;;;
       let! c0 := getB stream ctrlPos in
       let! c1 := getB stream (iaddN w ctrlPos 1) in
       Ret (iaddN w dataPos (iaddN w (ControlByteToSize c0) (ControlByteToSize c1)),
            iaddN w ctrlPos 2, iaddN w decoded 8))
    st in
  let! st := while (rfuel stream out)
    (fun '(dataPos, ctrlPos, decoded) => ctrlPos <? ctrlLen)
    (fun '(dataPos, ctrlPos, decoded) =>
       let nums := isubN w count decoded in
       let nums := if 4 <? nums then 4 else nums in
       let! data := slice_from stream dataPos in
       let! o := slice_from out decoded in
       let! ctrl := getB stream ctrlPos in
       let! n := GetUint32ScalarN data o ctrl nums in
       Ret (iaddN w dataPos n, iaddN w ctrlPos 1, iaddN w decoded nums))
    st in
  Ret tt
  end.

(** reader_amd64.go:126-236.  (reader_base.go has no counterpart, see Build.v; on
    other architectures it is modelled as a panic.)
    Loop variables: (dataPos, ctrlPos, decoded, prev). *)
Definition ReadAllDeltaFastN (a : arch) (count : Z) (stream out : slice) (prev : Z) : prog unit :=
  match a with
  | OtherArch => GoPanic
  | AMD64 _ _ =>
  let dataPos := idivN w (iaddN w count 3) 4 in
  let ctrlLen := dataPos in
  let lowest32 := iandnot (imulN w (isubN w ctrlLen 3) 4) 31 in
  let! st := while (rfuel stream out)
    (fun '(dataPos, ctrlPos, decoded, prev) => decoded <? lowest32)
    (fun '(dataPos, ctrlPos, decoded, prev) =>
       let! data := slice_from stream dataPos in
       let! ctrls := slice_range stream ctrlPos (iaddN w ctrlPos 8) in
       let! nums := slice_range out decoded (iaddN w decoded 32) in
       let! c0 := getB ctrls 0 in
       let! c1 := getB ctrls 1 in
       Get8uint32DeltaFastAsm a data nums (ctrl16 c0 c1) prev DecodeShuffleTable PerControlLenTable ;;;
       let! c0 := getB ctrls 0 in
       let! c1 := getB ctrls 1 in
       let sizeA := iaddN w (ControlByteToSize c0) (ControlByteToSize c1) in
       let! c2 := getB ctrls 2 in
       let! c3 := getB ctrls 3 in
       let! dA := slice_from data sizeA in
       let! n8 := slice_from nums 8 in
       let! p := getW nums 7 in
       Get8uint32DeltaFastAsm a dA n8 (ctrl16 c2 c3) p DecodeShuffleTable PerControlLenTable ;;;
       let! c2 := getB ctrls 2 in
       let! c3 := getB ctrls 3 in
       let sizeB := iaddN w (ControlByteToSize c2) (ControlByteToSize c3) in
       let! c4 := getB ctrls 4 in
       let! c5 := getB ctrls 5 in
       let! dB := slice_from data (iaddN w sizeA sizeB) in
       let! n16 := slice_from nums 16 in
       let! p := getW nums 15 in
       Get8uint32DeltaFastAsm a dB n16 (ctrl16 c4 c5) p DecodeShuffleTable PerControlLenTable ;;;
       let! c4 := getB ctrls 4 in
       let! c5 := getB ctrls 5 in
       let sizeC := iaddN w (ControlByteToSize c4) (ControlByteToSize c5) in
       let! c6 := getB ctrls 6 in
       let! c7 := getB ctrls 7 in
       let! dC := slice_from data (iaddN w (iaddN w sizeA sizeB) sizeC) in
       let! n24 := slice_from nums 24 in
       let! p := getW nums 23 in
       Get8uint32DeltaFastAsm a dC n24 (ctrl16 c6 c7) p DecodeShuffleTable PerControlLenTable ;;;
       let! c6 := getB ctrls 6 in
       let! c7 := getB ctrls 7 in
       let sizeD := iaddN w (ControlByteToSize c6) (ControlByteToSize c7) in
       let! prev := getW nums 31 in
       Ret (iaddN w dataPos (iaddN w (iaddN w (iaddN w sizeA sizeB) sizeC) sizeD),
            iaddN w ctrlPos 8, iaddN w decoded 32, prev))
    (dataPos, 0, 0, prev) in
  let! st := while (rfuel stream out)
    (fun '(dataPos, ctrlPos, decoded, prev) => ctrlPos <? isubN w ctrlLen 4)
    (fun '(dataPos, ctrlPos, decoded, prev) =>
       let! c0 := getB stream ctrlPos in
       let! c1 := getB stream (iaddN w ctrlPos 1) in
       let! data := slice_from stream dataPos in
       let! o := slice_from out decoded in
       Get8uint32DeltaFastAsm a data o (ctrl16 c0 c1) prev DecodeShuffleTable PerControlLenTable ;;;
       let! c0 := getB stream ctrlPos in
       let! c1 := getB stream (iaddN w ctrlPos 1) in
       let dataPos := iaddN w dataPos (iaddN w (ControlByteToSize c0) (ControlByteToSize c1)) in
       let decoded := iaddN w decoded 8 in
       let! prev := getW out (isubN w decoded 1) in
       Ret (dataPos, iaddN w ctrlPos 2, decoded, prev))
    st in
  let! st := while (rfuel stream out)
    (fun '(dataPos, ctrlPos, decoded, prev) => ctrlPos <? ctrlLen)
    (fun '(dataPos, ctrlPos, decoded, prev) =>
       let nums := isubN w count decoded in
       let nums := if 4 <? nums then 4 else nums in
       let! data := slice_from stream dataPos in
       let! o := slice_from out decoded in
       let! ctrl := getB stream ctrlPos in
       let! n := GetUint32DeltaScalarN data o ctrl nums prev in
       let dataPos := iaddN w dataPos n in
       let decoded := iaddN w decoded nums in
       let! prev := getW out (isubN w decoded 1) in
       Ret (dataPos, iaddN w ctrlPos 1, decoded, prev))
    st in
  Ret tt
  end.

(** reader.go:20-26 *)
Definition ReadAllN (a : arch) (count : Z) (stream out : slice) : prog unit :=
  match decGetMode a with
  | Fast => ReadAllFastN a count stream out
  | Normal => ReadAllScalarN count stream out
  end.

(** reader.go:36-42 *)
Definition ReadAllDeltaN (a : arch) (count : Z) (stream out : slice) (prev : Z) : prog unit :=
  match decGetMode a with
  | Fast => ReadAllDeltaFastN a count stream out prev
  | Normal => ReadAllDeltaScalarN count stream out prev
  end.

(** ** pkg/util; encoding/binary computes with ints below 16 only *)

(** util.go:27-35.  The loop runs len(in) times. *)
Definition DeltaN (inp out : slice) : prog unit :=
  while (S (Z.to_nat (s_len inp))) (fun i => i <? s_len inp)
    (fun i =>
       (if 0 <? i
        then let! a := getW inp i in let! b := getW inp (isubN w i 1) in setW out i (u32 (a - b))
        else let! a := getW inp i in setW out i a) ;;;
       Ret (iaddN w i 1)) 0 ;;;
  Ret tt.

(** varint.go:5-13 *)
Definition PutVarintN (nums out : slice) : prog Z :=
  let! st := while (S (Z.to_nat (s_len nums))) (fun '(i, pos) => i <? s_len nums)
    (fun '(i, pos) =>
       let! o := slice_from out pos in
       let! x := getW nums i in
       let! size := PutUvarint o (u64 x) in
       Ret (iaddN w i 1, iaddN w pos size)) (0, 0) in
  Ret (snd st).

(** varint.go:15-25.  Every round writes the next element of out, so len(out)+2 rounds
    are enough fuel. *)
Definition GetVarintN (cut : bool) (data out : slice) : prog Z :=
  let! st := while (S (S (Z.to_nat (s_len out)))) (fun '(pos, i) => pos <? s_len data)
    (fun '(pos, i) =>
       let! d := slice_from data pos in
       let! nr := Uvarint cut d in
       let pos := iaddN w pos (snd nr) in
       setW out i (u32 (fst nr)) ;;;
       Ret (pos, iaddN w i 1)) (0, 0) in
  Ret (fst st).

(** varint.go:27-36 *)
Definition PutDeltaVarintN (nums out : slice) (prev : Z) : prog Z :=
  let! st := while (S (Z.to_nat (s_len nums))) (fun '(i, pos, prev) => i <? s_len nums)
    (fun '(i, pos, prev) =>
       let! o := slice_from out pos in
       let! x := getW nums i in
       let! size := PutUvarint o (u64 (u32 (x - prev))) in
       let! prev := getW nums i in
       Ret (iaddN w i 1, iaddN w pos size, prev)) (0, 0, prev) in
  Ret (snd (fst st)).

(** varint.go:38-51 *)
Definition GetDeltaVarintN (cut : bool) (inp out : slice) (prev : Z) : prog Z :=
  let! st := while (S (S (Z.to_nat (s_len out)))) (fun '(pos, i, prev) => pos <? s_len inp)
    (fun '(pos, i, prev) =>
       let! d := slice_from inp pos in
       let! ns := Uvarint cut d in
       let pos := iaddN w pos (snd ns) in
       let res := u32 (u32 (fst ns) + prev) in
       setW out i res ;;;
       Ret (pos, iaddN w i 1, res)) (0, 0, prev) in
  Ret (fst (fst st)).
End width.

(** With 64 bits these are the functions of the model. *)
Local Ltac at64 :=
  rewrite ?iaddN_64, ?isubN_64, ?imulN_64, ?idivN_64, ?iN_64'.
Lemma encodeOneN_64 : encodeOneN 64 = encodeOne.
Proof. unfold encodeOneN. at64. reflexivity. Qed.
Lemma PutUint32ScalarN_64 : PutUint32ScalarN 64 = PutUint32Scalar.
Proof. unfold PutUint32ScalarN. at64. rewrite ?encodeOneN_64. reflexivity. Qed.
Lemma PutUint32DeltaScalarN_64 : PutUint32DeltaScalarN 64 = PutUint32DeltaScalar.
Proof. unfold PutUint32DeltaScalarN. at64. rewrite ?encodeOneN_64. reflexivity. Qed.
Lemma Put4uint32ScalarN_64 : Put4uint32ScalarN 64 = Put4uint32Scalar.
Proof. unfold Put4uint32ScalarN. at64. rewrite ?encodeOneN_64. reflexivity. Qed.
Lemma Put8uint32ScalarN_64 : Put8uint32ScalarN 64 = Put8uint32Scalar.
Proof. unfold Put8uint32ScalarN. at64. rewrite ?Put4uint32ScalarN_64. reflexivity. Qed.
Lemma Put4uint32DeltaScalarN_64 : Put4uint32DeltaScalarN 64 = Put4uint32DeltaScalar.
Proof. unfold Put4uint32DeltaScalarN. at64. rewrite ?encodeOneN_64. reflexivity. Qed.
Lemma Put8uint32DeltaScalarN_64 : Put8uint32DeltaScalarN 64 = Put8uint32DeltaScalar.
Proof. unfold Put8uint32DeltaScalarN. at64. rewrite ?Put4uint32DeltaScalarN_64. reflexivity. Qed.
Lemma Put8uint32N_64 : Put8uint32N 64 = Put8uint32.
Proof. unfold Put8uint32N. at64. rewrite ?Put8uint32ScalarN_64. reflexivity. Qed.
Lemma Put8uint32DeltaN_64 : Put8uint32DeltaN 64 = Put8uint32Delta.
Proof. unfold Put8uint32DeltaN. at64. rewrite ?Put8uint32DeltaScalarN_64. reflexivity. Qed.
Lemma GetUint32ScalarN_64 : GetUint32ScalarN 64 = GetUint32Scalar.
Proof. unfold GetUint32ScalarN. at64. reflexivity. Qed.
Lemma GetUint32DeltaScalarN_64 : GetUint32DeltaScalarN 64 = GetUint32DeltaScalar.
Proof. unfold GetUint32DeltaScalarN. at64. reflexivity. Qed.
Lemma WriteAllScalarN_64 : WriteAllScalarN 64 = WriteAllScalar.
Proof. unfold WriteAllScalarN. at64. rewrite ?PutUint32ScalarN_64. rewrite ?Put4uint32ScalarN_64. reflexivity. Qed.
Lemma WriteAllDeltaScalarN_64 : WriteAllDeltaScalarN 64 = WriteAllDeltaScalar.
Proof. unfold WriteAllDeltaScalarN. at64. rewrite ?PutUint32DeltaScalarN_64. rewrite ?Put4uint32DeltaScalarN_64. reflexivity. Qed.
Lemma WriteAllFastN_64 : WriteAllFastN 64 = WriteAllFast.
Proof. unfold WriteAllFastN. at64. rewrite ?PutUint32ScalarN_64. reflexivity. Qed.
Lemma WriteAllDeltaFastN_64 : WriteAllDeltaFastN 64 = WriteAllDeltaFast.
Proof. unfold WriteAllDeltaFastN. at64. rewrite ?PutUint32DeltaScalarN_64. reflexivity. Qed.
Lemma WriteAllN_64 : WriteAllN 64 = WriteAll.
Proof. unfold WriteAllN. at64. rewrite ?WriteAllScalarN_64. rewrite ?WriteAllFastN_64. reflexivity. Qed.
Lemma WriteAllDeltaN_64 : WriteAllDeltaN 64 = WriteAllDelta.
Proof. unfold WriteAllDeltaN. at64. rewrite ?WriteAllDeltaScalarN_64. rewrite ?WriteAllDeltaFastN_64. reflexivity. Qed.
Lemma ReadAllScalarN_64 : ReadAllScalarN 64 = ReadAllScalar.
Proof. unfold ReadAllScalarN. at64. rewrite ?GetUint32ScalarN_64. reflexivity. Qed.
Lemma ReadAllDeltaScalarN_64 : ReadAllDeltaScalarN 64 = ReadAllDeltaScalar.
Proof. unfold ReadAllDeltaScalarN. at64. rewrite ?GetUint32DeltaScalarN_64. reflexivity. Qed.
Lemma ReadAllFastN_64 : ReadAllFastN 64 = ReadAllFast.
Proof. unfold ReadAllFastN. at64. rewrite ?GetUint32ScalarN_64. reflexivity. Qed.
Lemma ReadAllDeltaFastN_64 : ReadAllDeltaFastN 64 = ReadAllDeltaFast.
Proof. unfold ReadAllDeltaFastN. at64. rewrite ?GetUint32DeltaScalarN_64. reflexivity. Qed.
Lemma ReadAllN_64 : ReadAllN 64 = ReadAll.
Proof. unfold ReadAllN. at64. rewrite ?ReadAllScalarN_64. rewrite ?ReadAllFastN_64. reflexivity. Qed.
Lemma ReadAllDeltaN_64 : ReadAllDeltaN 64 = ReadAllDelta.
Proof. unfold ReadAllDeltaN. at64. rewrite ?ReadAllDeltaScalarN_64. rewrite ?ReadAllDeltaFastN_64. reflexivity. Qed.
Lemma DeltaN_64 : DeltaN 64 = Delta.
Proof. unfold DeltaN. at64. reflexivity. Qed.
Lemma PutVarintN_64 : PutVarintN 64 = PutVarint.
Proof. unfold PutVarintN. at64. reflexivity. Qed.
Lemma GetVarintN_64 : GetVarintN 64 = GetVarint.
Proof. unfold GetVarintN. at64. reflexivity. Qed.
Lemma PutDeltaVarintN_64 : PutDeltaVarintN 64 = PutDeltaVarint.
Proof. unfold PutDeltaVarintN. at64. reflexivity. Qed.
Lemma GetDeltaVarintN_64 : GetDeltaVarintN 64 = GetDeltaVarint.
Proof. unfold GetDeltaVarintN. at64. reflexivity. Qed.
