(** * Model of pkg/decode (decode.go, decode_amd64.go, decode_base.go) *)
From stdpp Require Import prelude list.
From Coq Require Import ZArith.
From Verif Require Import GoSem Tables Shared Asm AsmProgs Encode.
Local Open Scope Z_scope.

(** decode.go:176-188; the final panic("impossible") is [GoPanic].  In
    [a | b | c] Go evaluates the operands left to right. *)
Definition decodeOne (b : slice) (size : Z) : prog Z :=
  if size =? 4 then
    let! b3 := getB b 3 in let! b2 := getB b 2 in
    let! b1 := getB b 1 in let! b0 := getB b 0 in
    Ret (Z.lor (Z.lor (Z.lor (u32 (Z.shiftl (u32 b3) 24)) (u32 (Z.shiftl (u32 b2) 16)))
                      (u32 (Z.shiftl (u32 b1) 8))) (u32 b0))
  else if size =? 3 then
    let! b2 := getB b 2 in let! b1 := getB b 1 in let! b0 := getB b 0 in
    Ret (Z.lor (Z.lor (u32 (Z.shiftl (u32 b2) 16)) (u32 (Z.shiftl (u32 b1) 8))) (u32 b0))
  else if size =? 2 then
    let! b1 := getB b 1 in let! b0 := getB b 0 in
    Ret (Z.lor (u32 (Z.shiftl (u32 b1) 8)) (u32 b0))
  else if size =? 1 then
    let! b0 := getB b 0 in Ret (u32 b0)
  else GoPanic.

(** shared.PerNumLenTable[ctrl] (index is a uint8, table has 256 rows of 4). *)
Definition perNumLen (ctrl : Z) (i : nat) : Z := nth i (nth (Z.to_nat ctrl) PerNumLenTable []) 0.

(** decode.go:63-75.  The offsets len0+len1+len2 are uint8 sums. *)
Definition Get4uint32Scalar (inp out : slice) (ctrl : Z) : prog unit :=
  let len3 := perNumLen ctrl 3 in
  let len2 := perNumLen ctrl 2 in
  let len1 := perNumLen ctrl 1 in
  let len0 := perNumLen ctrl 0 in
  let! i3 := slice_from inp (u8 (u8 (len0 + len1) + len2)) in
  let! v3 := decodeOne i3 len3 in
  setW out 3 v3 ;;;
  let! i2 := slice_from inp (u8 (len0 + len1)) in
  let! v2 := decodeOne i2 len2 in
  setW out 2 v2 ;;;
  let! i1 := slice_from inp len0 in
  let! v1 := decodeOne i1 len1 in
  setW out 1 v1 ;;;
  let! v0 := decodeOne inp len0 in
  setW out 0 v0.

(** decode.go:49-55 *)
Definition Get8uint32Scalar (inp out : slice) (ctrl : Z) : prog unit :=
  let lower := u8 (Z.land ctrl 255) in
  let upper := u8 (Z.shiftr ctrl 8) in
  let lowerSize := ControlByteToSize lower in
  Get4uint32Scalar inp out lower ;;;
  let! inl := slice_from inp lowerSize in
  let! out4 := slice_from out 4 in
  Get4uint32Scalar inl out4 upper.

(** decode.go:82-101.  Loop variables: (i, shift, total). *)
Definition GetUint32Scalar (inp out : slice) (ctrl count : Z) : prog Z :=
  if count =? 0 then Ret 0 else
  let count := if 4 <? count then 4 else count in
  let! st := while 5
    (fun '(i, shift, total) => i <? count)
    (fun '(i, shift, total) =>
       let size := u8 (Z.land (Z.shiftr ctrl shift) 3 + 1) in
       let! it := slice_from inp total in
       let! v := decodeOne it size in
       setW out i v ;;;
       Ret (iadd i 1, iadd shift 2, iadd total size))
    (0, 0, 0) in
  let '(_, _, total) := st in Ret total.

(** decode.go:109-130.  Loop variables: (i, shift, total, prev). *)
Definition GetUint32DeltaScalar (inp out : slice) (ctrl count prev : Z) : prog Z :=
  if count =? 0 then Ret 0 else
  let count := if 4 <? count then 4 else count in
  let! st := while 5
    (fun '(i, shift, total, prev) => i <? count)
    (fun '(i, shift, total, prev) =>
       let size := u8 (Z.land (Z.shiftr ctrl shift) 3 + 1) in
       let! it := slice_from inp total in
       let! v := decodeOne it size in
       let num := u32 (v + prev) in
       setW out i num ;;;
       Ret (iadd i 1, iadd shift 2, iadd total size, num))
    (0, 0, 0, prev) in
  let '(_, _, total, _) := st in Ret total.

(** decode.go:160-174 *)
Definition Get4uint32DeltaScalar (inp out : slice) (ctrl prev : Z) : prog unit :=
  let len0 := perNumLen ctrl 0 in
  let len1 := perNumLen ctrl 1 in
  let len2 := perNumLen ctrl 2 in
  let len3 := perNumLen ctrl 3 in
  check_idx out 3 ;;;
  let! v0 := decodeOne inp len0 in
  setW out 0 (u32 (v0 + prev)) ;;;
  let! i1 := slice_from inp len0 in
  let! v1 := decodeOne i1 len1 in
  let! o0 := getW out 0 in
  setW out 1 (u32 (v1 + o0)) ;;;
  let! i2 := slice_from inp (u8 (len0 + len1)) in
  let! v2 := decodeOne i2 len2 in
  let! o1 := getW out 1 in
  setW out 2 (u32 (v2 + o1)) ;;;
  let! i3 := slice_from inp (u8 (u8 (len0 + len1) + len2)) in
  let! v3 := decodeOne i3 len3 in
  let! o2 := getW out 2 in
  setW out 3 (u32 (v3 + o2)).

(** decode.go:142-148 *)
Definition Get8uint32DeltaScalar (inp out : slice) (ctrl prev : Z) : prog unit :=
  let lower := u8 (Z.land ctrl 255) in
  let upper := u8 (Z.shiftr ctrl 8) in
  let lowerSize := ControlByteToSize lower in
  Get4uint32DeltaScalar inp out lower prev ;;;
  let! inl := slice_from inp lowerSize in
  let! out4 := slice_from out 4 in
  let! p := getW out 3 in
  Get4uint32DeltaScalar inl out4 upper p.

(** ** Assembly entry points *)

(** A call whose result (there is none) is ignored. *)
Definition without_result (p : prog (option Z)) : prog unit := p ;;; Ret tt.

(** decode_amd64.go:47-50, decode_amd64.s:5-31 *)
Definition Get8uint32FastAsm (a : arch) (inp out : slice) (ctrl : Z)
    (shuffle : list (list Z)) (lenTable : list Z) : prog unit :=
  without_result (call_asm a Get8uint32FastAsm_code
    [argB inp; argW out; PU16 ctrl; PPtr (PT (concat shuffle) 0); PPtr (PT lenTable 0)]).

(** decode_amd64.go:64-67, decode_amd64.s:33-71 *)
Definition Get8uint32DeltaFastAsm (a : arch) (inp out : slice) (ctrl prev : Z)
    (shuffle : list (list Z)) (lenTable : list Z) : prog unit :=
  without_result (call_asm a Get8uint32DeltaFastAsm_code
    [argB inp; argW out; PU16 ctrl; PU32 prev; PPtr (PT (concat shuffle) 0); PPtr (PT lenTable 0)]).

(** decode_amd64.go:15-20 / decode_base.go:9-11 *)
Definition decGetMode (a : arch) : PerformanceMode :=
  match a with
  | AMD64 avx _ => if avx then Fast else Normal
  | OtherArch => Normal
  end.

(** decode_amd64.go:24-29 / decode_base.go:13-15.  (decode_base.go declares an
    [int] result, see Build.v.) *)
Definition Get8uint32Fast (a : arch) (inp out : slice) (ctrl : Z) : prog unit :=
  match a with
  | AMD64 _ _ => Get8uint32FastAsm a inp out ctrl DecodeShuffleTable PerControlLenTable
  | OtherArch => GoPanic
  end.
(** decode_amd64.go:33-39 / decode_base.go:17-19 *)
Definition Get8uint32DeltaFast (a : arch) (inp out : slice) (ctrl prev : Z) : prog unit :=
  match a with
  | AMD64 _ _ => Get8uint32DeltaFastAsm a inp out ctrl prev DecodeShuffleTable PerControlLenTable
  | OtherArch => GoPanic
  end.

(** decode.go:7-32 *)
Definition Get8uint32 (a : arch) (inp out : slice) (ctrl : Z) : prog unit :=
  match decGetMode a with
  | Fast => Get8uint32Fast a inp out ctrl
  | Normal => Get8uint32Scalar inp out ctrl
  end.
(** decode.go:15-23, 39-41 *)
Definition Get8uint32Delta (a : arch) (inp out : slice) (ctrl prev : Z) : prog unit :=
  match decGetMode a with
  | Fast => Get8uint32DeltaFast a inp out ctrl prev
  | Normal => Get8uint32DeltaScalar inp out ctrl prev
  end.
