(** * Model of pkg/stream/writer (writer.go, writer_amd64.go, writer_base.go)

    [blk] is the id the run-time system gives to the allocation made by [make].
    Every loop iteration encodes at least one number, so len(in)+1 is enough
    fuel (proved in the writer theorems: the outcome is never [Diverged]). *)
From stdpp Require Import prelude list.
From Coq Require Import ZArith.
From Verif Require Import GoSem Tables Shared Asm Encode.
Local Open Scope Z_scope.

(** writer.go:8-11 *)
Definition jump : Z := 16.
Definition jumpCtrl : Z := idiv jump 4.

Definition wfuel (inp : slice) : nat := S (Z.to_nat (s_len inp)).

(** writer.go:39-95.  Loop variables: (dataPos, ctrlPos, encoded). *)
Definition WriteAllScalar (blk : nat) (inp : slice) : prog slice :=
  let count := s_len inp in
  let ctrlLen := idiv (iadd count 3) 4 in
  let! stream := makeB blk (iadd ctrlLen (imul MaxBytesPerNum count)) in
  let lowestJump := iandnot count (isub jump 1) in
  let lowest4 := iandnot count 3 in
  let! st := while (wfuel inp)
    (fun '(dataPos, ctrlPos, encoded) => encoded <? lowestJump)
    (fun '(dataPos, ctrlPos, encoded) =>
       let! nums := slice_range inp encoded (iadd encoded jump) in
       let! data := slice_from stream dataPos in
       let! ctrls := slice_range stream ctrlPos (iadd ctrlPos jumpCtrl) in
       let! ctrl := Put4uint32Scalar nums data in
       setB ctrls 0 ctrl ;;;
       let sizeA := ControlByteToSize ctrl in
       let! n4 := slice_from nums 4 in
       let! dA := slice_from data sizeA in
       let! ctrl := Put4uint32Scalar n4 dA in
       setB ctrls 1 ctrl ;;;
       let sizeB := ControlByteToSize ctrl in
       let! n8 := slice_from nums 8 in
       let! dB := slice_from data (iadd sizeA sizeB) in
       let! ctrl := Put4uint32Scalar n8 dB in
       setB ctrls 2 ctrl ;;;
       let sizeC := ControlByteToSize ctrl in
       let! n12 := slice_from nums 12 in
       let! dC := slice_from data (iadd (iadd sizeA sizeB) sizeC) in
       let! ctrl := Put4uint32Scalar n12 dC in
       setB ctrls 3 ctrl ;;;
       let sizeD := ControlByteToSize ctrl in
       Ret (iadd dataPos (iadd (iadd (iadd sizeA sizeB) sizeC) sizeD),
            iadd ctrlPos jumpCtrl, iadd encoded jump))
    (ctrlLen, 0, 0) in
  let! st := while (wfuel inp)
    (fun '(dataPos, ctrlPos, encoded) => encoded <? lowest4)
    (fun '(dataPos, ctrlPos, encoded) =>
       let! ine := slice_from inp encoded in
       let! data := slice_from stream dataPos in
       let! ctrl := Put4uint32Scalar ine data in
       setB stream ctrlPos ctrl ;;;
       let size := ControlByteToSize ctrl in
       Ret (iadd dataPos size, iadd ctrlPos 1, iadd encoded 4))
    st in
  let '(dataPos, ctrlPos, encoded) := st in
  let! dataPos :=
    if negb (lowest4 =? count) then
      let nums := isub count lowest4 in
      let! ine := slice_from inp encoded in
      let! data := slice_from stream dataPos in
      let! ctrl := PutUint32Scalar ine data nums in
      let size := ControlByteToSize ctrl in
      let size := isub size (isub 4 nums) in
      let dataPos := iadd dataPos size in
      setB stream ctrlPos ctrl ;;;
      Ret dataPos
    else Ret dataPos in
  slice_to stream dataPos.

(** writer.go:99-157.  Loop variables: (dataPos, ctrlPos, encoded, prev). *)
Definition WriteAllDeltaScalar (blk : nat) (inp : slice) (prev : Z) : prog slice :=
  let count := s_len inp in
  let ctrlLen := idiv (iadd count 3) 4 in
  let! stream := makeB blk (iadd ctrlLen (imul MaxBytesPerNum count)) in
  let lowestJump := iandnot count (isub jump 1) in
  let lowest4 := iandnot count 3 in
  let! st := while (wfuel inp)
    (fun '(dataPos, ctrlPos, encoded, prev) => encoded <? lowestJump)
    (fun '(dataPos, ctrlPos, encoded, prev) =>
       let! nums := slice_range inp encoded (iadd encoded jump) in
       let! data := slice_from stream dataPos in
       let! ctrls := slice_range stream ctrlPos (iadd ctrlPos jumpCtrl) in
       let! ctrl := Put4uint32DeltaScalar nums data prev in
       setB ctrls 0 ctrl ;;;
       let sizeA := ControlByteToSize ctrl in
       let! n4 := slice_from nums 4 in
       let! dA := slice_from data sizeA in
       let! p := getW nums 3 in
       let! ctrl := Put4uint32DeltaScalar n4 dA p in
       setB ctrls 1 ctrl ;;;
       let sizeB := ControlByteToSize ctrl in
       let! n8 := slice_from nums 8 in
       let! dB := slice_from data (iadd sizeA sizeB) in
       let! p := getW nums 7 in
       let! ctrl := Put4uint32DeltaScalar n8 dB p in
       setB ctrls 2 ctrl ;;;
       let sizeC := ControlByteToSize ctrl in
       let! n12 := slice_from nums 12 in
       let! dC := slice_from data (iadd (iadd sizeA sizeB) sizeC) in
       let! p := getW nums 11 in
       let! ctrl := Put4uint32DeltaScalar n12 dC p in
       setB ctrls 3 ctrl ;;;
       let sizeD := ControlByteToSize ctrl in
       let! prev := getW nums 15 in
       Ret (iadd dataPos (iadd (iadd (iadd sizeA sizeB) sizeC) sizeD),
            iadd ctrlPos jumpCtrl, iadd encoded jump, prev))
    (ctrlLen, 0, 0, prev) in
  let! st := while (wfuel inp)
    (fun '(dataPos, ctrlPos, encoded, prev) => encoded <? lowest4)
    (fun '(dataPos, ctrlPos, encoded, prev) =>
       let! ine := slice_from inp encoded in
       let! data := slice_from stream dataPos in
       let! ctrl := Put4uint32DeltaScalar ine data prev in
       setB stream ctrlPos ctrl ;;;
       let size := ControlByteToSize ctrl in
       let! prev := getW inp (iadd encoded 3) in
       Ret (iadd dataPos size, iadd ctrlPos 1, iadd encoded 4, prev))
    st in
  let '(dataPos, ctrlPos, encoded, prev) := st in
  let! dataPos :=
    if negb (lowest4 =? count) then
      let nums := isub count lowest4 in
      let! ine := slice_from inp encoded in
      let! data := slice_from stream dataPos in
      let! ctrl := PutUint32DeltaScalar ine data nums prev in
      let size := ControlByteToSize ctrl in
      let size := isub size (isub 4 nums) in
      let dataPos := iadd dataPos size in
      setB stream ctrlPos ctrl ;;;
      Ret dataPos
    else Ret dataPos in
  slice_to stream dataPos.

(** writer_amd64.go:13-106 / writer_base.go:5-7.
    Loop variables: (dataPos, ctrlPos, encoded). *)
Definition WriteAllFast (a : arch) (blk : nat) (inp : slice) : prog slice :=
  match a with
  | OtherArch => GoPanic
  | AMD64 _ _ =>
  let count := s_len inp in
  let ctrlLen := idiv (iadd count 3) 4 in
  let! stream := makeB blk (iadd ctrlLen (imul MaxBytesPerNum count)) in
  let lowest32 := iandnot (imul (isub ctrlLen 3) 4) 31 in
  let! st := while (wfuel inp)
    (fun '(dataPos, ctrlPos, encoded) => encoded <? lowest32)
    (fun '(dataPos, ctrlPos, encoded) =>
       let! ctrls := slice_range stream ctrlPos (iadd ctrlPos 8) in
       let! nums := slice_range inp encoded (iadd encoded 32) in
       let! out := slice_from stream dataPos in
       let! n0 := slice_range nums 0 8 in
       let! ctrl := Put8uint32FastAsm a n0 out EncodeShuffleTable PerControlLenTable in
       setB ctrls 0 (u8 (Z.land ctrl 255)) ;;;
       setB ctrls 1 (u8 (Z.shiftr ctrl 8)) ;;;
       let sizeA := ControlByteToSizeTwo ctrl in
       let! n8 := slice_range nums 8 16 in
       let! oA := slice_from out sizeA in
       let! ctrl := Put8uint32FastAsm a n8 oA EncodeShuffleTable PerControlLenTable in
       setB ctrls 2 (u8 (Z.land ctrl 255)) ;;;
       setB ctrls 3 (u8 (Z.shiftr ctrl 8)) ;;;
       let sizeB := ControlByteToSizeTwo ctrl in
       let! n16 := slice_range nums 16 24 in
       let! oB := slice_from out (iadd sizeA sizeB) in
       let! ctrl := Put8uint32FastAsm a n16 oB EncodeShuffleTable PerControlLenTable in
       setB ctrls 4 (u8 (Z.land ctrl 255)) ;;;
       setB ctrls 5 (u8 (Z.shiftr ctrl 8)) ;;;
       let sizeC := ControlByteToSizeTwo ctrl in
       let! n24 := slice_from nums 24 in
       let! oC := slice_from out (iadd (iadd sizeA sizeB) sizeC) in
       let! ctrl := Put8uint32FastAsm a n24 oC EncodeShuffleTable PerControlLenTable in
       setB ctrls 6 (u8 (Z.land ctrl 255)) ;;;
       setB ctrls 7 (u8 (Z.shiftr ctrl 8)) ;;;
       let sizeD := ControlByteToSizeTwo ctrl in
       Ret (iadd dataPos (iadd (iadd (iadd sizeA sizeB) sizeC) sizeD),
            iadd ctrlPos 8, iadd encoded 32))
    (ctrlLen, 0, 0) in
  let! st := while (wfuel inp)
    (fun '(dataPos, ctrlPos, encoded) => ctrlPos <? isub ctrlLen 2)
    (fun '(dataPos, ctrlPos, encoded) =>
       let! ine := slice_from inp encoded in
       let! data := slice_from stream dataPos in
       let! ctrl := Put8uint32FastAsm a ine data EncodeShuffleTable PerControlLenTable in
       setB stream ctrlPos (u8 (Z.land ctrl 255)) ;;;
       setB stream (iadd ctrlPos 1) (u8 (Z.shiftr ctrl 8)) ;;;
       Ret (iadd dataPos (ControlByteToSizeTwo ctrl), iadd ctrlPos 2, iadd encoded 8))
    st in
  let! st := while (wfuel inp)
    (fun '(dataPos, ctrlPos, encoded) => ctrlPos <? ctrlLen)
    (fun '(dataPos, ctrlPos, encoded) =>
       let nums := isub count encoded in
       let nums := if 4 <? nums then 4 else nums in
       let! ine := slice_from inp encoded in
       let! data := slice_from stream dataPos in
       let! ctrl := PutUint32Scalar ine data nums in
       let size := ControlByteToSize ctrl in
       setB stream ctrlPos ctrl ;;;
       let size := isub size (isub 4 nums) in
       Ret (iadd dataPos size, iadd ctrlPos 1, iadd encoded nums))
    st in
  let '(dataPos, _, _) := st in
  slice_to stream dataPos
  end.

(** writer_amd64.go:111-212.  (writer_base.go has no counterpart, see Build.v;
    on other architectures it is modelled as a panic.)
    Loop variables: (dataPos, ctrlPos, encoded, prev). *)
Definition WriteAllDeltaFast (a : arch) (blk : nat) (inp : slice) (prev : Z) : prog slice :=
  match a with
  | OtherArch => GoPanic
  | AMD64 _ _ =>
  let count := s_len inp in
  let ctrlLen := idiv (iadd count 3) 4 in
  let! stream := makeB blk (iadd ctrlLen (imul MaxBytesPerNum count)) in
  let lowest32 := iandnot (imul (isub ctrlLen 3) 4) 31 in
  let! st := while (wfuel inp)
    (fun '(dataPos, ctrlPos, encoded, prev) => encoded <? lowest32)
    (fun '(dataPos, ctrlPos, encoded, prev) =>
       let! ctrls := slice_range stream ctrlPos (iadd ctrlPos 8) in
       let! nums := slice_range inp encoded (iadd encoded 32) in
       let! out := slice_from stream dataPos in
       let! n0 := slice_range nums 0 8 in
       let! ctrl := Put8uint32DeltaFastAsm a n0 out prev EncodeShuffleTable PerControlLenTable in
       setB ctrls 0 (u8 (Z.land ctrl 255)) ;;;
       setB ctrls 1 (u8 (Z.shiftr ctrl 8)) ;;;
       let sizeA := ControlByteToSizeTwo ctrl in
       let! n8 := slice_range nums 8 16 in
       let! oA := slice_from out sizeA in
       let! p := getW nums 7 in
       let! ctrl := Put8uint32DeltaFastAsm a n8 oA p EncodeShuffleTable PerControlLenTable in
       setB ctrls 2 (u8 (Z.land ctrl 255)) ;;;
       setB ctrls 3 (u8 (Z.shiftr ctrl 8)) ;;;
       let sizeB := ControlByteToSizeTwo ctrl in
       let! n16 := slice_range nums 16 24 in
       let! oB := slice_from out (iadd sizeA sizeB) in
       let! p := getW nums 15 in
       let! ctrl := Put8uint32DeltaFastAsm a n16 oB p EncodeShuffleTable PerControlLenTable in
       setB ctrls 4 (u8 (Z.land ctrl 255)) ;;;
       setB ctrls 5 (u8 (Z.shiftr ctrl 8)) ;;;
       let sizeC := ControlByteToSizeTwo ctrl in
       let! n24 := slice_from nums 24 in
       let! oC := slice_from out (iadd (iadd sizeA sizeB) sizeC) in
       let! p := getW nums 23 in
       let! ctrl := Put8uint32DeltaFastAsm a n24 oC p EncodeShuffleTable PerControlLenTable in
       setB ctrls 6 (u8 (Z.land ctrl 255)) ;;;
       setB ctrls 7 (u8 (Z.shiftr ctrl 8)) ;;;
       let sizeD := ControlByteToSizeTwo ctrl in
       let! prev := getW nums 31 in
       Ret (iadd dataPos (iadd (iadd (iadd sizeA sizeB) sizeC) sizeD),
            iadd ctrlPos 8, iadd encoded 32, prev))
    (ctrlLen, 0, 0, prev) in
  let! st := while (wfuel inp)
    (fun '(dataPos, ctrlPos, encoded, prev) => ctrlPos <? isub ctrlLen 2)
    (fun '(dataPos, ctrlPos, encoded, prev) =>
       let! ine := slice_from inp encoded in
       let! data := slice_from stream dataPos in
       let! ctrl := Put8uint32DeltaFastAsm a ine data prev EncodeShuffleTable PerControlLenTable in
       setB stream ctrlPos (u8 (Z.land ctrl 255)) ;;;
       setB stream (iadd ctrlPos 1) (u8 (Z.shiftr ctrl 8)) ;;;
       let encoded := iadd encoded 8 in
       let dataPos := iadd dataPos (ControlByteToSizeTwo ctrl) in
       let! prev := getW inp (isub encoded 1) in
       Ret (dataPos, iadd ctrlPos 2, encoded, prev))
    st in
  let! st := while (wfuel inp)
    (fun '(dataPos, ctrlPos, encoded, prev) => ctrlPos <? ctrlLen)
    (fun '(dataPos, ctrlPos, encoded, prev) =>
       let nums := isub count encoded in
       let nums := if 4 <? nums then 4 else nums in
       let! ine := slice_from inp encoded in
       let! data := slice_from stream dataPos in
       let! ctrl := PutUint32DeltaScalar ine data nums prev in
       let size := ControlByteToSize ctrl in
       setB stream ctrlPos ctrl ;;;
       let size := isub size (isub 4 nums) in
       let dataPos := iadd dataPos size in
       let encoded := iadd encoded nums in
       let! prev := getW inp (isub encoded 1) in
       Ret (dataPos, iadd ctrlPos 1, encoded, prev))
    st in
  let '(dataPos, _, _, _) := st in
  slice_to stream dataPos
  end.

(** writer.go:17-23 *)
Definition WriteAll (a : arch) (blk : nat) (inp : slice) : prog slice :=
  match encGetMode a with
  | Fast => WriteAllFast a blk inp
  | Normal => WriteAllScalar blk inp
  end.
(** writer.go:29-35 *)
Definition WriteAllDelta (a : arch) (blk : nat) (inp : slice) (prev : Z) : prog slice :=
  match encGetMode a with
  | Fast => WriteAllDeltaFast a blk inp prev
  | Normal => WriteAllDeltaScalar blk inp prev
  end.
