(** * Model of pkg/stream/reader (reader.go, reader_amd64.go, reader_base.go)

    Fuel: every iteration of every loop either panics or advances past at least
    one control byte of [stream] or one element of [out]; see the reader theorems
    (the outcome is never [Diverged], whatever the arguments). *)
From stdpp Require Import prelude list.
From Coq Require Import ZArith.
From Verif Require Import GoSem Tables Shared Asm Decode.
Local Open Scope Z_scope.

(** reader.go:8-11 *)
Definition jump : Z := 16.
Definition jumpCtrl : Z := idiv jump 4.

Definition rfuel (stream out : slice) : nat := Z.to_nat (s_len stream + s_cap out + 2).

(** reader.go:50-97.  Loop variables: (dataPos, ctrlPos, decoded). *)
Definition ReadAllScalar (count : Z) (stream out : slice) : prog unit :=
  let ctrlLen := idiv (iadd count 3) 4 in
  let lowestJump := iandnot count (isub jump 1) in
  let lowest4 := iandnot count 3 in
  let! st := while (rfuel stream out)
    (fun '(dataPos, ctrlPos, decoded) => decoded <? lowestJump)
    (fun '(dataPos, ctrlPos, decoded) =>
       let! data := slice_from stream dataPos in
       let! ctrls := slice_range stream ctrlPos (iadd ctrlPos jumpCtrl) in
       let! nums := slice_range out decoded (iadd decoded jump) in
       let! ctrl := getB ctrls 0 in
       Get4uint32Scalar data nums ctrl ;;;
       let sizeA := ControlByteToSize ctrl in
       let! ctrl := getB ctrls 1 in
       let! dA := slice_from data sizeA in
       let! n4 := slice_from nums 4 in
       Get4uint32Scalar dA n4 ctrl ;;;
       let sizeB := ControlByteToSize ctrl in
       let! ctrl := getB ctrls 2 in
       let! dB := slice_from data (iadd sizeA sizeB) in
       let! n8 := slice_from nums 8 in
       Get4uint32Scalar dB n8 ctrl ;;;
       let sizeC := ControlByteToSize ctrl in
       let! ctrl := getB ctrls 3 in
       let! dC := slice_from data (iadd (iadd sizeA sizeB) sizeC) in
       let! n12 := slice_from nums 12 in
       Get4uint32Scalar dC n12 ctrl ;;;
       let sizeD := ControlByteToSize ctrl in
       Ret (iadd dataPos (iadd (iadd (iadd sizeA sizeB) sizeC) sizeD),
            iadd ctrlPos jumpCtrl, iadd decoded jump))
    (ctrlLen, 0, 0) in
  let! st := while (rfuel stream out)
    (fun '(dataPos, ctrlPos, decoded) => decoded <? lowest4)
    (fun '(dataPos, ctrlPos, decoded) =>
       let! ctrl := getB stream ctrlPos in
       let! data := slice_from stream dataPos in
       let! o := slice_from out decoded in
       Get4uint32Scalar data o ctrl ;;;
       let size := ControlByteToSize ctrl in
       Ret (iadd dataPos size, iadd ctrlPos 1, iadd decoded 4))
    st in
  let '(dataPos, ctrlPos, decoded) := st in
  if negb (lowest4 =? count) then
    let! data := slice_from stream dataPos in
    let! o := slice_from out decoded in
    let! ctrl := getB stream ctrlPos in
    GetUint32Scalar data o ctrl (isub count lowest4) ;;; Ret tt
  else Ret tt.

(** reader.go:106-155.  Loop variables: (dataPos, ctrlPos, decoded, prev). *)
Definition ReadAllDeltaScalar (count : Z) (stream out : slice) (prev : Z) : prog unit :=
  let ctrlLen := idiv (iadd count 3) 4 in
  let lowestJump := iandnot count (isub jump 1) in
  let lowest4 := iandnot count 3 in
  let! st := while (rfuel stream out)
    (fun '(dataPos, ctrlPos, decoded, prev) => decoded <? lowestJump)
    (fun '(dataPos, ctrlPos, decoded, prev) =>
       let! data := slice_from stream dataPos in
       let! ctrls := slice_range stream ctrlPos (iadd ctrlPos jumpCtrl) in
       let! nums := slice_range out decoded (iadd decoded jump) in
       let! ctrl := getB ctrls 0 in
       Get4uint32DeltaScalar data nums ctrl prev ;;;
       let sizeA := ControlByteToSize ctrl in
       let! ctrl := getB ctrls 1 in
       let! dA := slice_from data sizeA in
       let! n4 := slice_from nums 4 in
       let! p := getW nums 3 in
       Get4uint32DeltaScalar dA n4 ctrl p ;;;
       let sizeB := ControlByteToSize ctrl in
       let! ctrl := getB ctrls 2 in
       let! dB := slice_from data (iadd sizeA sizeB) in
       let! n8 := slice_from nums 8 in
       let! p := getW nums 7 in
       Get4uint32DeltaScalar dB n8 ctrl p ;;;
       let sizeC := ControlByteToSize ctrl in
       let! ctrl := getB ctrls 3 in
       let! dC := slice_from data (iadd (iadd sizeA sizeB) sizeC) in
       let! n12 := slice_from nums 12 in
       let! p := getW nums 11 in
       Get4uint32DeltaScalar dC n12 ctrl p ;;;
       let sizeD := ControlByteToSize ctrl in
       let! prev := getW nums 15 in
       Ret (iadd dataPos (iadd (iadd (iadd sizeA sizeB) sizeC) sizeD),
            iadd ctrlPos jumpCtrl, iadd decoded jump, prev))
    (ctrlLen, 0, 0, prev) in
  let! st := while (rfuel stream out)
    (fun '(dataPos, ctrlPos, decoded, prev) => decoded <? lowest4)
    (fun '(dataPos, ctrlPos, decoded, prev) =>
       let! ctrl := getB stream ctrlPos in
       let! data := slice_from stream dataPos in
       let! o := slice_from out decoded in
       Get4uint32DeltaScalar data o ctrl prev ;;;
       let size := ControlByteToSize ctrl in
       let! prev := getW out (iadd decoded 3) in
       Ret (iadd dataPos size, iadd ctrlPos 1, iadd decoded 4, prev))
    st in
  let '(dataPos, ctrlPos, decoded, prev) := st in
  if negb (lowest4 =? count) then
    let! data := slice_from stream dataPos in
    let! o := slice_from out decoded in
    let! ctrl := getB stream ctrlPos in
    GetUint32DeltaScalar data o ctrl (isub count lowest4) prev ;;; Ret tt
  else Ret tt.

(** uint16(lo) | uint16(hi)<<8 *)
Definition ctrl16 (lo hi : Z) : Z := Z.lor (u16 lo) (u16 (Z.shiftl (u16 hi) 8)).

(** reader_amd64.go:16-117 / reader_base.go:5-7.
    Loop variables: (dataPos, ctrlPos, decoded). *)
Definition ReadAllFast (a : arch) (count : Z) (stream out : slice) : prog unit :=
  match a with
  | OtherArch => GoPanic
  | AMD64 _ _ =>
  let dataPos := idiv (iadd count 3) 4 in
  let ctrlLen := dataPos in
  let lowest32 := iandnot (imul (isub ctrlLen 3) 4) 31 in
  let! st := while (rfuel stream out)
    (fun '(dataPos, ctrlPos, decoded) => decoded <? lowest32)
    (fun '(dataPos, ctrlPos, decoded) =>
       let! data := slice_from stream dataPos in
       let! ctrls := slice_range stream ctrlPos (iadd ctrlPos 8) in
       let! nums := slice_range out decoded (iadd decoded 32) in
       let! c0 := getB ctrls 0 in
       let! c1 := getB ctrls 1 in
       Get8uint32FastAsm a data nums (ctrl16 c0 c1) DecodeShuffleTable PerControlLenTable ;;;
       let! c0 := getB ctrls 0 in
       let! c1 := getB ctrls 1 in
       let sizeA := iadd (ControlByteToSize c0) (ControlByteToSize c1) in
       let! c2 := getB ctrls 2 in
       let! c3 := getB ctrls 3 in
       let! dA := slice_from data sizeA in
       let! n8 := slice_from nums 8 in
       Get8uint32FastAsm a dA n8 (ctrl16 c2 c3) DecodeShuffleTable PerControlLenTable ;;;
       let! c2 := getB ctrls 2 in
       let! c3 := getB ctrls 3 in
       let sizeB := iadd (ControlByteToSize c2) (ControlByteToSize c3) in
       let! c4 := getB ctrls 4 in
       let! c5 := getB ctrls 5 in
       let! dB := slice_from data (iadd sizeA sizeB) in
       let! n16 := slice_from nums 16 in
       Get8uint32FastAsm a dB n16 (ctrl16 c4 c5) DecodeShuffleTable PerControlLenTable ;;;
       let! c4 := getB ctrls 4 in
       let! c5 := getB ctrls 5 in
       let sizeC := iadd (ControlByteToSize c4) (ControlByteToSize c5) in
       let! c6 := getB ctrls 6 in
       let! c7 := getB ctrls 7 in
       let! dC := slice_from data (iadd (iadd sizeA sizeB) sizeC) in
       let! n24 := slice_from nums 24 in
       Get8uint32FastAsm a dC n24 (ctrl16 c6 c7) DecodeShuffleTable PerControlLenTable ;;;
       let! c6 := getB ctrls 6 in
       let! c7 := getB ctrls 7 in
       let sizeD := iadd (ControlByteToSize c6) (ControlByteToSize c7) in
       Ret (iadd dataPos (iadd (iadd (iadd sizeA sizeB) sizeC) sizeD),
            iadd ctrlPos 8, iadd decoded 32))
    (dataPos, 0, 0) in
  let! st := while (rfuel stream out)
    (fun '(dataPos, ctrlPos, decoded) => ctrlPos <? isub ctrlLen 4)
    (fun '(dataPos, ctrlPos, decoded) =>
       let! c0 := getB stream ctrlPos in
       let! c1 := getB stream (iadd ctrlPos 1) in
       let! data := slice_from stream dataPos in
       let! o := slice_from out decoded in
       Get8uint32FastAsm a data o (ctrl16 c0 c1) DecodeShuffleTable PerControlLenTable ;;;
       let! c0 := getB stream ctrlPos in
       let! c1 := getB stream (iadd ctrlPos 1) in
       Ret (iadd dataPos (iadd (ControlByteToSize c0) (ControlByteToSize c1)),
            iadd ctrlPos 2, iadd decoded 8))
    st in
  let! st := while (rfuel stream out)
    (fun '(dataPos, ctrlPos, decoded) => ctrlPos <? ctrlLen)
    (fun '(dataPos, ctrlPos, decoded) =>
       let nums := isub count decoded in
       let nums := if 4 <? nums then 4 else nums in
       let! data := slice_from stream dataPos in
       let! o := slice_from out decoded in
       let! ctrl := getB stream ctrlPos in
       let! n := GetUint32Scalar data o ctrl nums in
       Ret (iadd dataPos n, iadd ctrlPos 1, iadd decoded nums))
    st in
  Ret tt
  end.

(** reader_amd64.go:126-236.  (reader_base.go has no counterpart, see Build.v; on
    other architectures it is modelled as a panic.)
    Loop variables: (dataPos, ctrlPos, decoded, prev). *)
Definition ReadAllDeltaFast (a : arch) (count : Z) (stream out : slice) (prev : Z) : prog unit :=
  match a with
  | OtherArch => GoPanic
  | AMD64 _ _ =>
  let dataPos := idiv (iadd count 3) 4 in
  let ctrlLen := dataPos in
  let lowest32 := iandnot (imul (isub ctrlLen 3) 4) 31 in
  let! st := while (rfuel stream out)
    (fun '(dataPos, ctrlPos, decoded, prev) => decoded <? lowest32)
    (fun '(dataPos, ctrlPos, decoded, prev) =>
       let! data := slice_from stream dataPos in
       let! ctrls := slice_range stream ctrlPos (iadd ctrlPos 8) in
       let! nums := slice_range out decoded (iadd decoded 32) in
       let! c0 := getB ctrls 0 in
       let! c1 := getB ctrls 1 in
       Get8uint32DeltaFastAsm a data nums (ctrl16 c0 c1) prev DecodeShuffleTable PerControlLenTable ;;;
       let! c0 := getB ctrls 0 in
       let! c1 := getB ctrls 1 in
       let sizeA := iadd (ControlByteToSize c0) (ControlByteToSize c1) in
       let! c2 := getB ctrls 2 in
       let! c3 := getB ctrls 3 in
       let! dA := slice_from data sizeA in
       let! n8 := slice_from nums 8 in
       let! p := getW nums 7 in
       Get8uint32DeltaFastAsm a dA n8 (ctrl16 c2 c3) p DecodeShuffleTable PerControlLenTable ;;;
       let! c2 := getB ctrls 2 in
       let! c3 := getB ctrls 3 in
       let sizeB := iadd (ControlByteToSize c2) (ControlByteToSize c3) in
       let! c4 := getB ctrls 4 in
       let! c5 := getB ctrls 5 in
       let! dB := slice_from data (iadd sizeA sizeB) in
       let! n16 := slice_from nums 16 in
       let! p := getW nums 15 in
       Get8uint32DeltaFastAsm a dB n16 (ctrl16 c4 c5) p DecodeShuffleTable PerControlLenTable ;;;
       let! c4 := getB ctrls 4 in
       let! c5 := getB ctrls 5 in
       let sizeC := iadd (ControlByteToSize c4) (ControlByteToSize c5) in
       let! c6 := getB ctrls 6 in
       let! c7 := getB ctrls 7 in
       let! dC := slice_from data (iadd (iadd sizeA sizeB) sizeC) in
       let! n24 := slice_from nums 24 in
       let! p := getW nums 23 in
       Get8uint32DeltaFastAsm a dC n24 (ctrl16 c6 c7) p DecodeShuffleTable PerControlLenTable ;;;
       let! c6 := getB ctrls 6 in
       let! c7 := getB ctrls 7 in
       let sizeD := iadd (ControlByteToSize c6) (ControlByteToSize c7) in
       let! prev := getW nums 31 in
       Ret (iadd dataPos (iadd (iadd (iadd sizeA sizeB) sizeC) sizeD),
            iadd ctrlPos 8, iadd decoded 32, prev))
    (dataPos, 0, 0, prev) in
  let! st := while (rfuel stream out)
    (fun '(dataPos, ctrlPos, decoded, prev) => ctrlPos <? isub ctrlLen 4)
    (fun '(dataPos, ctrlPos, decoded, prev) =>
       let! c0 := getB stream ctrlPos in
       let! c1 := getB stream (iadd ctrlPos 1) in
       let! data := slice_from stream dataPos in
       let! o := slice_from out decoded in
       Get8uint32DeltaFastAsm a data o (ctrl16 c0 c1) prev DecodeShuffleTable PerControlLenTable ;;;
       let! c0 := getB stream ctrlPos in
       let! c1 := getB stream (iadd ctrlPos 1) in
       let dataPos := iadd dataPos (iadd (ControlByteToSize c0) (ControlByteToSize c1)) in
       let decoded := iadd decoded 8 in
       let! prev := getW out (isub decoded 1) in
       Ret (dataPos, iadd ctrlPos 2, decoded, prev))
    st in
  let! st := while (rfuel stream out)
    (fun '(dataPos, ctrlPos, decoded, prev) => ctrlPos <? ctrlLen)
    (fun '(dataPos, ctrlPos, decoded, prev) =>
       let nums := isub count decoded in
       let nums := if 4 <? nums then 4 else nums in
       let! data := slice_from stream dataPos in
       let! o := slice_from out decoded in
       let! ctrl := getB stream ctrlPos in
       let! n := GetUint32DeltaScalar data o ctrl nums prev in
       let dataPos := iadd dataPos n in
       let decoded := iadd decoded nums in
       let! prev := getW out (isub decoded 1) in
       Ret (dataPos, iadd ctrlPos 1, decoded, prev))
    st in
  Ret tt
  end.

(** reader.go:20-26 *)
Definition ReadAll (a : arch) (count : Z) (stream out : slice) : prog unit :=
  match decGetMode a with
  | Fast => ReadAllFast a count stream out
  | Normal => ReadAllScalar count stream out
  end.
(** reader.go:36-42 *)
Definition ReadAllDelta (a : arch) (count : Z) (stream out : slice) (prev : Z) : prog unit :=
  match decGetMode a with
  | Fast => ReadAllDeltaFast a count stream out prev
  | Normal => ReadAllDeltaScalar count stream out prev
  end.
