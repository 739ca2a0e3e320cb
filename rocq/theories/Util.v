(** * Model of pkg/util (util.go, varint.go, rand.go) *)
From stdpp Require Import prelude list.
From Coq Require Import ZArith.
From Verif Require Import GoSem.
Local Open Scope Z_scope.

(** util.go:27-35.  The loop runs len(in) times. *)
Definition Delta (inp out : slice) : prog unit :=
  while (S (Z.to_nat (s_len inp))) (fun i => i <? s_len inp)
    (fun i =>
       (if 0 <? i
        then let! a := getW inp i in let! b := getW inp (isub i 1) in setW out i (u32 (a - b))
        else let! a := getW inp i in setW out i a) ;;;
       Ret (iadd i 1)) 0 ;;;
  Ret tt.

(** ** encoding/binary (Go standard library, varint.go) *)
(** PutUvarint(buf, x uint64): x loses 7 bits in each round, 11 rounds are enough fuel. *)
Definition PutUvarint (buf : slice) (x : Z) : prog Z :=
  let! st := while 11 (fun '(i, x) => 128 <=? x)
    (fun '(i, x) => setB buf i (Z.lor (u8 x) 128) ;;; Ret (iadd i 1, Z.shiftr x 7)) (0, x) in
  let '(i, x) := st in
  setB buf i (u8 x) ;;; Ret (iadd i 1).
(** Uvarint(buf): [n] is the number of bytes of buf not yet looked at.  Go 1.15.1 and
    later ([cut = true]) give up at the eleventh byte; earlier releases go on to the
    terminating byte. *)
Definition MaxVarintLen64 : Z := 10.
Fixpoint Uvarint_from (cut : bool) (buf : slice) (n : nat) (i x s : Z) : prog (Z * Z) :=
  match n with
  | O => Ret (0, 0)
  | S n' =>
      let! b := getB buf i in
      if cut && (i =? MaxVarintLen64) then Ret (0, - (i + 1)) else
      if b <? 128 then
        if (9 <? i) || ((i =? 9) && (1 <? b)) then Ret (0, - (i + 1))
        else Ret (Z.lor x (u64 (Z.shiftl b s)), i + 1)
      else Uvarint_from cut buf n' (iadd i 1) (Z.lor x (u64 (Z.shiftl (Z.land b 127) s))) (u64 (s + 7))
  end.
Definition Uvarint (cut : bool) (buf : slice) : prog (Z * Z) :=
  Uvarint_from cut buf (Z.to_nat (s_len buf)) 0 0 0.

(** varint.go:5-13 *)
Definition PutVarint (nums out : slice) : prog Z :=
  let! st := while (S (Z.to_nat (s_len nums))) (fun '(i, pos) => i <? s_len nums)
    (fun '(i, pos) =>
       let! o := slice_from out pos in
       let! x := getW nums i in
       let! size := PutUvarint o (u64 x) in
       Ret (iadd i 1, iadd pos size)) (0, 0) in
  Ret (snd st).
(** varint.go:15-25.  Every round writes the next element of out, so len(out)+2 rounds
    are enough fuel. *)
Definition GetVarint (cut : bool) (data out : slice) : prog Z :=
  let! st := while (S (S (Z.to_nat (s_len out)))) (fun '(pos, i) => pos <? s_len data)
    (fun '(pos, i) =>
       let! d := slice_from data pos in
       let! nr := Uvarint cut d in
       let pos := iadd pos (snd nr) in
       setW out i (u32 (fst nr)) ;;;
       Ret (pos, iadd i 1)) (0, 0) in
  Ret (fst st).
(** varint.go:27-36 *)
Definition PutDeltaVarint (nums out : slice) (prev : Z) : prog Z :=
  let! st := while (S (Z.to_nat (s_len nums))) (fun '(i, pos, prev) => i <? s_len nums)
    (fun '(i, pos, prev) =>
       let! o := slice_from out pos in
       let! x := getW nums i in
       let! size := PutUvarint o (u64 (u32 (x - prev))) in
       let! prev := getW nums i in
       Ret (iadd i 1, iadd pos size, prev)) (0, 0, prev) in
  Ret (snd (fst st)).
(** varint.go:38-51 *)
Definition GetDeltaVarint (cut : bool) (inp out : slice) (prev : Z) : prog Z :=
  let! st := while (S (S (Z.to_nat (s_len out)))) (fun '(pos, i, prev) => pos <? s_len inp)
    (fun '(pos, i, prev) =>
       let! d := slice_from inp pos in
       let! ns := Uvarint cut d in
       let pos := iadd pos (snd ns) in
       let res := u32 (u32 (fst ns) + prev) in
       setW out i res ;;;
       Ret (pos, iadd i 1, res)) (0, 0, prev) in
  Ret (fst (fst st)).

(** ** rand.go.  The random source is an argument: [r] is what rand.Uint32() yields
    (any uint32), [k] what rand.Int() yields (any int >= 0). *)
(** rand.go:17-19; uint32 arithmetic, division by zero panics. *)
Definition randUint32Range (low high r : Z) : option Z :=
  let d := u32 (u32 (high - low) + 1) in
  if d =? 0 then None else Some (u32 (r mod d + low)).
(** rand.go:21-40 *)
Definition generators : list (Z -> option Z) :=
  [randUint32Range 0 (2 ^ 8); randUint32Range (2 ^ 8) (2 ^ 16); randUint32Range (2 ^ 16) (2 ^ 24); randUint32Range (2 ^ 24) (2 ^ 32 - 1)].
(** rand.go:46-48; None: panic *)
Definition RandUint32 (k r : Z) : option Z :=
  match nth_error generators (Z.to_nat (Z.rem k 4)) with Some g => if Z.rem k 4 <? 0 then None else g r | None => None end.
(** util.go:12-19: the contents of the new slice; [ks], [rs] are the values drawn. *)
Definition GenUint32 (n : nat) (ks rs : nat -> Z) : list (option Z) := map (fun i => RandUint32 (ks i) (rs i)) (seq 0 n).
