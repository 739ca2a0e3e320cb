(** * Model of pkg/encode (encode.go, encode_amd64.go, encode_base.go) *)
From stdpp Require Import prelude list.
From Coq Require Import ZArith.
From Verif Require Import GoSem Tables Shared Asm AsmProgs.
Local Open Scope Z_scope.

(** encode.go:9-11 *)
Definition MaxBytesPerNum : Z := 4.

(** math/bits.LeadingZeros32 (Go standard library) *)
Definition LeadingZeros32 (x : Z) : Z := if x =? 0 then 32 else 31 - Z.log2 x.

(** encode.go:231-236 *)
Definition max (a b : Z) : Z := if a <? b then b else a.

(** encode.go:213-229.  [switch] with [fallthrough]: [cN] is the code executed
    when entering at case N. *)
Definition encodeOne (num : Z) (out : slice) : prog Z :=
  let size := max 1 (isub 4 (idiv (LeadingZeros32 num) 8)) in
  let c1 := setB out 0 (u8 num) in
  let c2 := setB out 1 (u8 (Z.shiftr num 8)) ;;; c1 in
  let c3 := setB out 2 (u8 (Z.shiftr num 16)) ;;; c2 in
  let c4 := setB out 3 (u8 (Z.shiftr num 24)) ;;; c3 in
  (if size =? 4 then c4 else if size =? 3 then c3 else if size =? 2 then c2
   else if size =? 1 then c1 else Ret tt) ;;;
  Ret size.

(** encode.go:54-76.  Loop variables: (i, ctrl, shift, total).  At most four
    iterations run, hence fuel 5. *)
Definition PutUint32Scalar (inp out : slice) (count : Z) : prog Z :=
  if count =? 0 then Ret 0 else
  let count := if 4 <? count then 4 else count in
  let! st := while 5
    (fun '(i, ctrl, shift, total) => i <? count)
    (fun '(i, ctrl, shift, total) =>
       let! x := getW inp i in
       let! o := slice_from out total in
       let! size := encodeOne x o in
       let total := iadd total size in
       let ctrl := Z.lor ctrl (u8 (Z.shiftl (u8 (isub size 1)) shift)) in
       let shift := iadd shift 2 in
       Ret (iadd i 1, ctrl, shift, total))
    (0, 0, 0, 0) in
  let '(_, ctrl, _, _) := st in Ret ctrl.

(** encode.go:83-106.  Loop variables: (i, ctrl, shift, total, prev). *)
Definition PutUint32DeltaScalar (inp out : slice) (count prev : Z) : prog Z :=
  if count =? 0 then Ret 0 else
  let count := if 4 <? count then 4 else count in
  let! st := while 5
    (fun '(i, ctrl, shift, total, prev) => i <? count)
    (fun '(i, ctrl, shift, total, prev) =>
       let! x := getW inp i in
       let! o := slice_from out total in
       let! size := encodeOne (u32 (x - prev)) o in
       let total := iadd total size in
       let ctrl := Z.lor ctrl (u8 (Z.shiftl (u8 (isub size 1)) shift)) in
       let shift := iadd shift 2 in
       let! prev := getW inp i in
       Ret (iadd i 1, ctrl, shift, total, prev))
    (0, 0, 0, 0, prev) in
  let '(_, ctrl, _, _, _) := st in Ret ctrl.

(** encode.go:150-165 *)
Definition Put4uint32Scalar (inp out : slice) : prog Z :=
  check_idx inp 3 ;;;
  let! num0 := getW inp 0 in
  let! num1 := getW inp 1 in
  let! num2 := getW inp 2 in
  let! num3 := getW inp 3 in
  let! len0 := encodeOne num0 out in
  let! o1 := slice_from out len0 in
  let! len1 := encodeOne num1 o1 in
  let! o2 := slice_from out (iadd len0 len1) in
  let! len2 := encodeOne num2 o2 in
  let! o3 := slice_from out (iadd (iadd len0 len1) len2) in
  let! len3 := encodeOne num3 o3 in
  Ret (u8 (Z.lor (Z.lor (Z.lor (isub len0 1)
                               (i64 (Z.shiftl (isub len1 1) 2)))
                        (i64 (Z.shiftl (isub len2 1) 4)))
                 (i64 (Z.shiftl (isub len3 1) 6)))).

(** encode.go:114-121 *)
Definition Put8uint32Scalar (inp out : slice) : prog Z :=
  let! first := Put4uint32Scalar inp out in
  let ctrl := Z.lor 0 (u16 first) in
  let encoded := ControlByteToSize first in
  let! in4 := slice_from inp 4 in
  let! oute := slice_from out encoded in
  let! second := Put4uint32Scalar in4 oute in
  Ret (Z.lor ctrl (u16 (Z.shiftl (u16 second) 8))).

(** encode.go:196-211 *)
Definition Put4uint32DeltaScalar (inp out : slice) (prev : Z) : prog Z :=
  check_idx inp 3 ;;;
  let! a0 := getW inp 0 in
  let num0 := u32 (a0 - prev) in
  let! a1 := getW inp 1 in
  let! a0' := getW inp 0 in
  let num1 := u32 (a1 - a0') in
  let! a2 := getW inp 2 in
  let! a1' := getW inp 1 in
  let num2 := u32 (a2 - a1') in
  let! a3 := getW inp 3 in
  let! a2' := getW inp 2 in
  let num3 := u32 (a3 - a2') in
  let! len0 := encodeOne num0 out in
  let! o1 := slice_from out len0 in
  let! len1 := encodeOne num1 o1 in
  let! o2 := slice_from out (iadd len0 len1) in
  let! len2 := encodeOne num2 o2 in
  let! o3 := slice_from out (iadd (iadd len0 len1) len2) in
  let! len3 := encodeOne num3 o3 in
  Ret (u8 (Z.lor (Z.lor (Z.lor (isub len0 1)
                               (i64 (Z.shiftl (isub len1 1) 2)))
                        (i64 (Z.shiftl (isub len2 1) 4)))
                 (i64 (Z.shiftl (isub len3 1) 6)))).

(** encode.go:177-184 *)
Definition Put8uint32DeltaScalar (inp out : slice) (prev : Z) : prog Z :=
  let! first := Put4uint32DeltaScalar inp out prev in
  let ctrl := Z.lor 0 (u16 first) in
  let encoded := ControlByteToSize first in
  let! in4 := slice_from inp 4 in
  let! oute := slice_from out encoded in
  let! p := getW inp 3 in
  let! second := Put4uint32DeltaScalar in4 oute p in
  Ret (Z.lor ctrl (u16 (Z.shiftl (u16 second) 8))).

(** ** Assembly entry points *)

(** Arguments as the assembly sees them: []uint32 and []byte headers. *)
Definition argW (s : slice) : param := PSlice (PW (s_blk s) (4 * s_off s)) (s_len s) (s_cap s).
Definition argB (s : slice) : param := PSlice (PB (s_blk s) (s_off s)) (s_len s) (s_cap s).

(** A call that must produce a result. *)
Definition with_result (p : prog (option Z)) : prog Z :=
  let! r := p in match r with Some z => Ret z | None => Fault end.

(** encode_amd64.go:195-198 (declaration), encode_amd64.s:11-45 (body).  [shuffle]
    is the 256x16 table, stored row by row. *)
Definition Put8uint32FastAsm (a : arch) (inp out : slice)
    (shuffle : list (list Z)) (lenTable : list Z) : prog Z :=
  with_result (call_asm a Put8uint32FastAsm_code
    [argW inp; argB out; PPtr (PT (concat shuffle) 0); PPtr (PT lenTable 0)]).

(** encode_amd64.go:212-215, encode_amd64.s:47-86 *)
Definition Put8uint32DeltaFastAsm (a : arch) (inp out : slice) (prev : Z)
    (shuffle : list (list Z)) (lenTable : list Z) : prog Z :=
  with_result (call_asm a Put8uint32DeltaFastAsm_code
    [argW inp; argB out; PU32 prev; PPtr (PT (concat shuffle) 0); PPtr (PT lenTable 0)]).

(** encode_amd64.go:15-20 / encode_base.go:9-11 *)
Definition encGetMode (a : arch) : PerformanceMode :=
  match a with
  | AMD64 avx avx2 => if avx && avx2 then Fast else Normal
  | OtherArch => Normal
  end.

(** encode_amd64.go:24-29 / encode_base.go:13-15 *)
Definition Put8uint32Fast (a : arch) (inp out : slice) : prog Z :=
  match a with
  | AMD64 _ _ => Put8uint32FastAsm a inp out EncodeShuffleTable PerControlLenTable
  | OtherArch => GoPanic
  end.
(** encode_amd64.go:33-39 / encode_base.go:17-19 *)
Definition Put8uint32DeltaFast (a : arch) (inp out : slice) (prev : Z) : prog Z :=
  match a with
  | AMD64 _ _ => Put8uint32DeltaFastAsm a inp out prev EncodeShuffleTable PerControlLenTable
  | OtherArch => GoPanic
  end.

(** encode.go:13-38: [putImpl] is chosen once by [init]. *)
Definition Put8uint32 (a : arch) (inp out : slice) : prog Z :=
  match encGetMode a with
  | Fast => Put8uint32Fast a inp out
  | Normal => Put8uint32Scalar inp out
  end.
(** encode.go:21-29, 45-47 *)
Definition Put8uint32Delta (a : arch) (inp out : slice) (prev : Z) : prog Z :=
  match encGetMode a with
  | Fast => Put8uint32DeltaFast a inp out prev
  | Normal => Put8uint32DeltaScalar inp out prev
  end.
