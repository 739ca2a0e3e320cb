(** * Independent specification of the Stream VByte format.

    Nothing here refers to the model of the code.  Numbers and bytes are [Z];
    lengths are [nat].  Source of the format: README.md ("Group Varint format",
    "Stream VByte format") and the paper it cites. *)
From Coq Require Import ZArith List.
Import ListNotations.
Local Open Scope Z_scope.

Definition is_u32 (x : Z) : Prop := 0 <= x < 2 ^ 32.
Definition is_byte (x : Z) : Prop := 0 <= x < 256.
Definition is_u16 (x : Z) : Prop := 0 <= x < 65536.

(** Minimal number of bytes of a uint32. *)
Definition nbytes (x : Z) : nat :=
  if x <? 2 ^ 8 then 1%nat
  else if x <? 2 ^ 16 then 2%nat
  else if x <? 2 ^ 24 then 3%nat
  else 4%nat.

(** [le n x]: the [n] low bytes of [x], least significant first. *)
Fixpoint le (n : nat) (x : Z) : list Z :=
  match n with
  | O => []
  | S n' => x mod 256 :: le n' (x / 256)
  end.

(** Value of a little-endian byte string. *)
Fixpoint le_val (bs : list Z) : Z :=
  match bs with
  | [] => 0
  | b :: r => b + 256 * le_val r
  end.

(** The data bytes of one number and of a list of numbers. *)
Definition enc1 (x : Z) : list Z := le (nbytes x) x.
Fixpoint enc_data (xs : list Z) : list Z :=
  match xs with
  | [] => []
  | x :: r => enc1 x ++ enc_data r
  end.

(** Control byte of a group of at most four numbers: number [i] occupies bits
    [2i, 2i+1] and holds (byte length - 1); unused slots are 0. *)
Fixpoint ctrl_of (xs : list Z) : Z :=
  match xs with
  | [] => 0
  | x :: r => (Z.of_nat (nbytes x) - 1) + 4 * ctrl_of r
  end.

(** Groups of four, the last one possibly shorter. *)
Fixpoint groups4 (xs : list Z) : list (list Z) :=
  match xs with
  | a :: b :: c :: d :: r => [a; b; c; d] :: groups4 r
  | [] => []
  | short => [short]
  end.

Definition enc_ctrls (xs : list Z) : list Z := map ctrl_of (groups4 xs).

(** The encoded stream: all control bytes, then all data bytes. *)
Definition stream_of (xs : list Z) : list Z := enc_ctrls xs ++ enc_data xs.

(** ceil(n/4) *)
Definition nctrl (n : nat) : nat := Nat.div (n + 3) 4.

(** ** Differential coding, modulo 2^32 *)
Fixpoint deltas (prev : Z) (xs : list Z) : list Z :=
  match xs with
  | [] => []
  | x :: r => (x - prev) mod 2 ^ 32 :: deltas x r
  end.

Fixpoint running_sums (prev : Z) (ds : list Z) : list Z :=
  match ds with
  | [] => []
  | d :: r => (prev + d) mod 2 ^ 32 :: running_sums ((prev + d) mod 2 ^ 32) r
  end.

(** ** Decoding an arbitrary stream *)

(** The four byte lengths a control byte announces. *)
Definition ctrl_lens (c : Z) : list nat :=
  [Z.to_nat (c mod 4 + 1); Z.to_nat (c / 4 mod 4 + 1);
   Z.to_nat (c / 16 mod 4 + 1); Z.to_nat (c / 64 mod 4 + 1)].

(** Cut [data] into consecutive pieces of the given lengths. *)
Fixpoint cut (lens : list nat) (data : list Z) : list (list Z) :=
  match lens with
  | [] => []
  | n :: r => firstn n data :: cut r (skipn n data)
  end.

Definition sum_nat (l : list nat) : nat := fold_right Nat.add 0%nat l.

(** Byte lengths of the [count] numbers of a stream. *)
Definition stream_lens (count : nat) (stream : list Z) : list nat :=
  firstn count (concat (map ctrl_lens (firstn (nctrl count) stream))).

(** Number of bytes a stream of [count] numbers occupies. *)
Definition stream_size (count : nat) (stream : list Z) : nat :=
  (nctrl count + sum_nat (stream_lens count stream))%nat.

(** A stream is well formed for [count] numbers when it is made of bytes and has all control bytes
    and all the data bytes the control bytes announce.  (It may be longer.) *)
Definition well_formed (count : nat) (stream : list Z) : Prop :=
  Forall is_byte stream /\
  (nctrl count <= length stream)%nat /\ (stream_size count stream <= length stream)%nat.

(** The numbers the format assigns to a stream. *)
Definition decode_stream (count : nat) (stream : list Z) : list Z :=
  map le_val (cut (stream_lens count stream) (skipn (nctrl count) stream)).
Definition decode_stream_delta (count : nat) (stream : list Z) (prev : Z) : list Z :=
  running_sums prev (decode_stream count stream).
