(** * Model of pkg/shared/gen.go and mode.go *)
From Coq Require Import ZArith List.
From Verif Require Import GoSem Tables.
Local Open Scope Z_scope.

(** mode.go:8-13 *)
Inductive PerformanceMode := Normal | Fast.

(** The platform the program runs on.  [AMD64 avx avx2] gives the feature bits
    cpu.X86.HasAVX / HasAVX2 of golang.org/x/sys/cpu (assumed to be accurate);
    [OtherArch] is every GOARCH selected by the build tag !amd64. *)
Inductive arch := AMD64 (avx avx2 : bool) | OtherArch.

(** gen.go:5-7.  The index is a uint8 and the table has 256 entries, so the
    default of [nth] is never used. *)
Definition ControlByteToSize (c : Z) : Z := nth (Z.to_nat c) PerControlLenTable 0.

(** gen.go:9-11.  The addition is a uint8 addition. *)
Definition ControlByteToSizeTwo (c : Z) : Z :=
  u8 (nth (Z.to_nat (Z.land c 255)) PerControlLenTable 0
      + nth (Z.to_nat (Z.shiftr c 8)) PerControlLenTable 0).
