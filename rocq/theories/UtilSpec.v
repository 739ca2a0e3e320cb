(** * Independent specification of variable-length integers

    The format of encoding/binary (the protocol buffer "varint").  Nothing here refers
    to the model of the code. *)
From Coq Require Import ZArith List.
Import ListNotations.
Local Open Scope Z_scope.

(** Seven bits per byte, low ones first; the top bit says that another byte follows. *)
Fixpoint uv (n : nat) (x : Z) : list Z :=
  match n with
  | O => [x]
  | S n' => if x <? 128 then [x] else x mod 128 + 128 :: uv n' (x / 128)
  end.
Definition varint (x : Z) : list Z := uv 9 x.
Fixpoint uv_val (p : list Z) : Z := match p with [] => 0 | b :: r => b mod 128 + 128 * uv_val r end.
Definition terminated (p : list Z) : Prop := exists q b, p = (q ++ [b])%list /\ Forall (fun c => 128 <= c) q /\ b < 128.
(** An encoding (not necessarily the shortest) of a uint64. *)
Definition uv_ok (p : list Z) : Prop := terminated p /\ (length p <= 10)%nat /\ uv_val p < 2 ^ 64.
(** A byte string that is a sequence of encodings. *)
Inductive varints : list Z -> list Z -> Prop :=
| varints_nil : varints [] []
| varints_cons p r vs : uv_ok p -> varints r vs -> varints (p ++ r)%list (uv_val p :: vs).


(** In-place use of util.Delta: each element minus the element just written before it. *)
Fixpoint alternating (prev : Z) (xs : list Z) : list Z :=
  match xs with
  | [] => []
  | x :: r => (x - prev) mod 2 ^ 32 :: alternating ((x - prev) mod 2 ^ 32) r
  end.
