(** * Vocabulary of the property theorems

    Only [GoSem] (what it means to run Go code on a memory) and [Spec] (the format)
    are used in this first part; nothing refers to the model of the library. *)
From stdpp Require Import prelude gmap list.
From Coq Require Import ZArith Lia.
From Verif Require Import Spec GoSem.
Local Open Scope Z_scope.

(** The elements s[0], ..., s[len(s)-1]. *)
Definition contents (h : gmap nat (list Z)) (s : slice) : list Z :=
  firstn (Z.to_nat (s_len s)) (skipn (Z.to_nat (s_off s)) (default [] (h !! s_blk s))).
Definition bytes (m : mem) (s : slice) : list Z := contents (mb m) s.
Definition words (m : mem) (s : slice) : list Z := contents (mw m) s.

(** A slice value that can exist: its capacity lies inside its allocation.  (A nil
    slice is one with capacity 0, on any or no allocation.) *)
Definition fits (h : gmap nat (list Z)) (s : slice) : Prop :=
  0 <= s_off s /\ 0 <= s_len s <= s_cap s /\ s_off s + s_cap s <= Z.of_nat (length (default [] (h !! s_blk s))).
(** The sizes are bounded by the address space; 2^55 bytes is far above it. *)
Definition validB (m : mem) (s : slice) : Prop := fits (mb m) s /\ s_cap s <= 2 ^ 55.
Definition validW (m : mem) (s : slice) : Prop := fits (mw m) s /\ s_cap s <= 2 ^ 52.

(** Byte allocations hold bytes, uint32 allocations hold uint32s. *)
Record typed (m : mem) : Prop := {
  typed_b : forall b l, mb m !! b = Some l -> Forall is_byte l;
  typed_w : forall b l, mw m !! b = Some l -> Forall is_u32 l }.

Definition returns {A} (p : prog A) (m : mem) (v : A) (m' : mem) : Prop :=
  result (run p m) = Ok v /\ final (run p m) = m'.
Definition panics {A} (p : prog A) (m : mem) : Prop := result (run p m) = Panicked.
(** Every memory access of the execution satisfies [F]. *)
Definition accesses {A} (p : prog A) (m : mem) (F : event -> Prop) : Prop := Forall F (trace (run p m)).

(** [h'] is [h] except possibly for elements [lo .. lo+n-1] of allocation [b]. *)
Definition same_except (h h' : gmap nat (list Z)) (b : nat) (lo n : Z) : Prop :=
  (forall b', b' <> b -> h' !! b' = h !! b') /\
  length (default [] (h' !! b)) = length (default [] (h !! b)) /\
  forall i, ~ (lo <= i < lo + n) -> hget h' b i = hget h b i.

(** Position [i] lies in s[0:n]. *)
Definition within (s : slice) (n i : Z) : Prop := s_off s <= i < s_off s + n.

(** What a writer of [inp] into the fresh allocation [B] (of [n] bytes) may touch. *)
Definition writer_may (B : nat) (n : Z) (inp : slice) (e : event) : Prop :=
  match e with
  | EAlB b => b = B
  | EWrB b i => b = B /\ 0 <= i < n
  | ERdW b i => b = s_blk inp /\ within inp (s_len inp) i
  | ERdB _ _ | EWrW _ _ => False
  end.
(** What a reader may touch: the first [nb] bytes of [st], the first [nw] elements of [out]. *)
Definition reader_may (st : slice) (nb : Z) (out : slice) (nw : Z) (e : event) : Prop :=
  match e with
  | ERdB b i => b = s_blk st /\ within st nb i
  | EWrW b i | ERdW b i => b = s_blk out /\ within out nw i
  | EWrB _ _ | EAlB _ => False
  end.
(** What an encoder may touch: the first [nw] elements of [inp], the first [nb] bytes of [out]. *)
Definition encoder_may (inp : slice) (nw : Z) (out : slice) (nb : Z) (e : event) : Prop :=
  match e with
  | ERdW b i => b = s_blk inp /\ within inp nw i
  | EWrB b i => b = s_blk out /\ within out nb i
  | ERdB _ _ | EWrW _ _ | EAlB _ => False
  end.

(** Bytes past the end of the stream the SIMD readers may load: see C07 and C12. *)
Definition overread (n : Z) : Z := if n <=? 16 then 0 else (- n) mod 4.

(** [D] was stored at the start of [s], nothing else changed. *)
Definition stores_bytes (m m' : mem) (s : slice) (D : list Z) : Prop :=
  mw m' = mw m /\ same_except (mb m) (mb m') (s_blk s) (s_off s) (Z.of_nat (length D)) /\
  take (length D) (bytes m' s) = D.
Definition stores_words (m m' : mem) (s : slice) (D : list Z) : Prop :=
  mb m' = mb m /\ same_except (mw m) (mw m') (s_blk s) (s_off s) (Z.of_nat (length D)) /\
  take (length D) (words m' s) = D.

(** The 16-bit control of eight numbers and the byte lengths it announces. *)
Definition ctrl8_of (xs : list Z) : Z := ctrl_of (take 4 xs) + 256 * ctrl_of (drop 4 xs).
Definition ctrl8_lens (c : Z) : list nat := ctrl_lens (c mod 256) ++ ctrl_lens (c / 256).
(** The numbers with the given byte lengths at the start of [data]. *)
Definition numbers (lens : list nat) (data : list Z) : list Z := map le_val (cut lens data).
