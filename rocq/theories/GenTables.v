(** * Model of the table generator pkg/shared/main/gentables.go.
    Only the computed numbers are modelled; text formatting (fmt, go/format,
    file output) is not. *)
From Coq Require Import ZArith List.
From Verif Require Import GoSem.
Import ListNotations.
Local Open Scope Z_scope.

(** gentables.go:183-191 [sizes]; the argument is a uint8. *)
Definition sizes (control : Z) : Z * Z * Z * Z :=
  (u8 (Z.land control 3 + 1),
   u8 (Z.land (Z.shiftr control 2) 3 + 1),
   u8 (Z.land (Z.shiftr control 4) 3 + 1),
   u8 (Z.land (Z.shiftr control 6) 3 + 1)).

(** [for i := 0; i < MaxControlByte; i++], gentables.go:21. *)
Definition controls : list Z := map Z.of_nat (seq 0 256).

(** gentables.go:80-93 *)
Definition genPerNumLengthTable : list (list Z) :=
  map (fun i => let '(one, two, three, four) := sizes i in [one; two; three; four]) controls.

(** gentables.go:95-108; [one+two+three+four] is a uint8 sum. *)
Definition genPerQuadLengthTable : list Z :=
  map (fun i => let '(one, two, three, four) := sizes i in
                u8 (u8 (u8 (one + two) + three) + four)) controls.

(** gentables.go:126-137: inner loops of genEncodeShuffleTable for one row. *)
Fixpoint enc_positions (szs : list Z) (base : Z) : list Z :=
  match szs with
  | [] => []
  | size :: r =>
      map (fun j => u8 (base + Z.of_nat j)) (seq 0 (Z.to_nat size))
      ++ enc_positions r (u8 (base + 4))
  end.
(** gentables.go:135-137: [for len(positions) < 16 { append 0xff }] *)
Definition pad16 (l : list Z) : list Z := l ++ repeat 255 (16 - length l).

(** gentables.go:115-146 *)
Definition genEncodeShuffleTable : list (list Z) :=
  map (fun i => let '(one, two, three, four) := sizes i in
                pad16 (enc_positions [one; two; three; four] 0)) controls.

(** gentables.go:162-170: inner loop [for j := 0; j < 4; j++]; returns positions
    appended, and the new [pos]. *)
Fixpoint dec_inner (j : nat) (size pos : Z) : list Z * Z :=
  match j with
  | O => ([], pos)
  | S j' =>
      if 0 <? size then
        let '(l, p) := dec_inner j' (u8 (size - 1)) (u8 (pos + 1)) in (pos :: l, p)
      else
        let '(l, p) := dec_inner j' size pos in (255 :: l, p)
  end.
(** gentables.go:159-171 *)
Fixpoint dec_positions (szs : list Z) (pos : Z) : list Z :=
  match szs with
  | [] => []
  | size :: r => let '(l, p) := dec_inner 4 size pos in l ++ dec_positions r p
  end.

(** gentables.go:148-181 *)
Definition genDecodeShuffleTable : list (list Z) :=
  map (fun i => let '(one, two, three, four) := sizes i in
                dec_positions [one; two; three; four] 0) controls.
