(** * Semantics of the fragment of Go used by the library.

    A Go computation is a tree of primitive memory accesses.  [run] executes the
    tree on a memory and returns the outcome, the final memory and the list of
    accesses performed. *)
From stdpp Require Import prelude gmap list.
From Coq Require Import ZArith.
Local Open Scope Z_scope.

(** ** Machine integers *)
Definition u8 (x : Z) : Z := x mod 2 ^ 8.
Definition u16 (x : Z) : Z := x mod 2 ^ 16.
Definition u32 (x : Z) : Z := x mod 2 ^ 32.
Definition u64 (x : Z) : Z := x mod 2 ^ 64.
(** Go [int] on a 64-bit platform: two's complement wrap-around. *)
Definition i64 (x : Z) : Z := (x + 2 ^ 63) mod 2 ^ 64 - 2 ^ 63.

(** Go int operators.  [a / b] truncates toward zero; [a &^ b] is and-not. *)
Definition iadd (a b : Z) : Z := i64 (a + b).
Definition isub (a b : Z) : Z := i64 (a - b).
Definition imul (a b : Z) : Z := i64 (a * b).
Definition idiv (a b : Z) : Z := i64 (Z.quot a b).
Definition iandnot (a b : Z) : Z := Z.ldiff a b.

(** ** Memory

    [mb]: allocations with byte elements, [mw]: allocations with uint32 elements.
    (Without package unsafe a []byte and a []uint32 never share memory.)  Each
    allocation is a list of elements; slices of one allocation may overlap. *)
Record mem := Mem { mb : gmap nat (list Z); mw : gmap nat (list Z) }.

Inductive event :=
| ERdB (b : nat) (i : Z)  (* read byte i of byte allocation b *)
| EWrB (b : nat) (i : Z)
| ERdW (b : nat) (i : Z)  (* read element i of uint32 allocation b *)
| EWrW (b : nat) (i : Z)
| EAlB (b : nat).         (* allocate byte allocation b *)

Inductive prog (A : Type) : Type :=
| Ret (a : A)
| GoPanic                 (* Go run-time panic *)
| Fault                   (* hardware fault / undefined behaviour *)
| BadInstr                (* #UD: instruction the CPU does not have *)
| Diverge                 (* loop fuel exhausted; proved unreachable *)
| ReadB (b : nat) (i : Z) (k : Z -> prog A)
| WriteB (b : nat) (i : Z) (v : Z) (k : prog A)
| ReadW (b : nat) (i : Z) (k : Z -> prog A)
| WriteW (b : nat) (i : Z) (v : Z) (k : prog A)
| AllocB (b : nat) (n : Z) (k : prog A).
Arguments Ret {A} a.
Arguments GoPanic {A}.
Arguments Fault {A}.
Arguments BadInstr {A}.
Arguments Diverge {A}.
Arguments ReadB {A} b i k.
Arguments WriteB {A} b i v k.
Arguments ReadW {A} b i k.
Arguments WriteW {A} b i v k.
Arguments AllocB {A} b n k.

Fixpoint bind {A B} (p : prog A) (f : A -> prog B) : prog B :=
  match p with
  | Ret a => f a
  | GoPanic => GoPanic
  | Fault => Fault
  | BadInstr => BadInstr
  | Diverge => Diverge
  | ReadB b i k => ReadB b i (fun v => bind (k v) f)
  | WriteB b i v k => WriteB b i v (bind k f)
  | ReadW b i k => ReadW b i (fun v => bind (k v) f)
  | WriteW b i v k => WriteW b i v (bind k f)
  | AllocB b n k => AllocB b n (bind k f)
  end.

Declare Scope prog_scope.
Delimit Scope prog_scope with prog.
Notation "'let!' x ':=' p 'in' q" := (bind p (fun x => q))
  (at level 200, x name, p at level 100, q at level 200, right associativity) : prog_scope.
Notation "p ;;; q" := (bind p (fun _ => q))
  (at level 199, right associativity) : prog_scope.
Open Scope prog_scope.

(** Element access: fails outside the allocation. *)
Definition hget (h : gmap nat (list Z)) (b : nat) (i : Z) : option Z :=
  if 0 <=? i then match h !! b with Some l => l !! Z.to_nat i | None => None end else None.
Definition hput (h : gmap nat (list Z)) (b : nat) (i v : Z) : option (gmap nat (list Z)) :=
  if 0 <=? i then
    match h !! b with
    | Some l => if Nat.ltb (Z.to_nat i) (length l)
                then Some (<[b := <[Z.to_nat i := v]> l]> h) else None
    | None => None
    end
  else None.

Inductive res (A : Type) :=
| Ok (a : A)
| Panicked
| Faulted
| Illegal
| Diverged.
Arguments Ok {A} a.
Arguments Panicked {A}.
Arguments Faulted {A}.
Arguments Illegal {A}.
Arguments Diverged {A}.

(** [run p m] = (outcome, final memory, accesses in order). *)
Fixpoint run {A} (p : prog A) (m : mem) : res A * mem * list event :=
  match p with
  | Ret a => (Ok a, m, [])
  | GoPanic => (Panicked, m, [])
  | Fault => (Faulted, m, [])
  | BadInstr => (Illegal, m, [])
  | Diverge => (Diverged, m, [])
  | ReadB b i k =>
      match hget (mb m) b i with
      | Some v => let '(r, m', t) := run (k v) m in (r, m', ERdB b i :: t)
      | None => (Faulted, m, [ERdB b i])
      end
  | WriteB b i v k =>
      match hput (mb m) b i v with
      | Some h => let '(r, m', t) := run k (Mem h (mw m)) in (r, m', EWrB b i :: t)
      | None => (Faulted, m, [EWrB b i])
      end
  | ReadW b i k =>
      match hget (mw m) b i with
      | Some v => let '(r, m', t) := run (k v) m in (r, m', ERdW b i :: t)
      | None => (Faulted, m, [ERdW b i])
      end
  | WriteW b i v k =>
      match hput (mw m) b i v with
      | Some h => let '(r, m', t) := run k (Mem (mb m) h) in (r, m', EWrW b i :: t)
      | None => (Faulted, m, [EWrW b i])
      end
  | AllocB b n k =>
      match mb m !! b with
      | None => let '(r, m', t) := run k (Mem (<[b := replicate (Z.to_nat n) 0]> (mb m)) (mw m))
                in (r, m', EAlB b :: t)
      | Some _ => (Faulted, m, [EAlB b])   (* the id must be fresh *)
      end
  end.

Definition result {A} (x : res A * mem * list event) : res A := fst (fst x).
Definition final {A} (x : res A * mem * list event) : mem := snd (fst x).
Definition trace {A} (x : res A * mem * list event) : list event := snd x.

(** ** Slices: allocation, offset, length, capacity (in elements).
    The zero-capacity pointer adjustment of the gc compiler is not modelled. *)
Record slice := Slice { s_blk : nat; s_off : Z; s_len : Z; s_cap : Z }.

(** s[lo:] — panics unless 0 <= lo <= len(s). *)
Definition slice_from (s : slice) (lo : Z) : prog slice :=
  if (0 <=? lo) && (lo <=? s_len s)
  then Ret (Slice (s_blk s) (s_off s + lo) (s_len s - lo) (s_cap s - lo)) else GoPanic.
(** s[lo:hi] — panics unless 0 <= lo <= hi <= cap(s). *)
Definition slice_range (s : slice) (lo hi : Z) : prog slice :=
  if (0 <=? lo) && (lo <=? hi) && (hi <=? s_cap s)
  then Ret (Slice (s_blk s) (s_off s + lo) (hi - lo) (s_cap s - lo)) else GoPanic.
(** s[:hi] *)
Definition slice_to (s : slice) (hi : Z) : prog slice := slice_range s 0 hi.

(** s[i] as bounds check only ([_ = s[i]]). *)
Definition check_idx (s : slice) (i : Z) : prog unit :=
  if (0 <=? i) && (i <? s_len s) then Ret tt else GoPanic.
(** v := s[i] / s[i] = v, byte elements *)
Definition getB (s : slice) (i : Z) : prog Z :=
  check_idx s i ;;; ReadB (s_blk s) (s_off s + i) Ret.
Definition setB (s : slice) (i v : Z) : prog unit :=
  check_idx s i ;;; WriteB (s_blk s) (s_off s + i) v (Ret tt).
(** v := s[i] / s[i] = v, uint32 elements *)
Definition getW (s : slice) (i : Z) : prog Z :=
  check_idx s i ;;; ReadW (s_blk s) (s_off s + i) Ret.
Definition setW (s : slice) (i v : Z) : prog unit :=
  check_idx s i ;;; WriteW (s_blk s) (s_off s + i) v (Ret tt).

(** make([]byte, n).  The id of the new allocation is chosen by the run-time
    system and passed in; memory exhaustion is not modelled. *)
Definition makeB (b : nat) (n : Z) : prog slice :=
  if n <? 0 then GoPanic else AllocB b n (Ret (Slice b 0 n n)).

(** ** Loops: [for cond { body }] on the tuple of mutable variables. *)
Fixpoint while {S} (fuel : nat) (cond : S -> bool) (body : S -> prog S) (s : S) : prog S :=
  match fuel with
  | O => Diverge
  | Datatypes.S n => if cond s then let! s' := body s in while n cond body s' else Ret s
  end.
