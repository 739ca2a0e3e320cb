(** * The generators of the assembly: pkg/encode/main/asm.go, pkg/decode/main/asm.go
    and pkg/shared/asm.go

    These programs describe the assembly routines with github.com/mmcloughlin/avo:
    instructions on virtual registers, of which there are as many as wanted.  avo
    assigns physical registers and prints the result, encode_amd64.s and
    decode_amd64.s.  Modelled are the descriptions; avo's assignment is not modelled
    but its result is checked (C_Avo.v). *)
From stdpp Require Import prelude list strings.
From Coq Require Import ZArith.
From Verif Require Import Spec GoSem Shared Asm.
Local Open Scope Z_scope.

(** ** Instructions on virtual registers: [instr] of Asm.v with numbers for registers *)
Inductive vinstr :=
| vMOVQ_arg (o : Z) (d : nat)
| vMOVQ (s d : nat)
| vMOVWQZX_arg (o : Z) (d : nat)
| vMOVWQZX (s d : nat)
| vMOVBQZX (s d : nat)
| vMOVBQZX_ld (a d : nat)
| vSHLQ (n : Z) (d : nat)
| vSHRQ (n : Z) (d : nat)
| vADDQ (s d : nat)
| vMOVW_ret (s : nat) (o : Z)
| vVLDDQU (disp : Z) (a d : nat)
| vVMOVDQU (s : nat) (disp : Z) (a : nat)
| vVPBROADCASTW (c : Z) (d : nat)
| vVBROADCASTSS_arg (o : Z) (d : nat)
| vVPMINUB (s2 s1 d : nat)
| vVPACKUSWB (s2 s1 d : nat)
| vVPMINSW (s2 s1 d : nat)
| vVPADDUSW (s2 s1 d : nat)
| vVPMOVMSKB (s d : nat)
| vVPSHUFB_ld (a s d : nat)
| vVPALIGNR (n : Z) (s2 s1 d : nat)
| vVPSUBD (s2 s1 d : nat)
| vVPADDD (s2 s1 d : nat)
| vVPSLLDQ (n : Z) (s d : nat)
| vVPSHUFD (n : Z) (s d : nat).

(** ** Parameters: avo's gotypes.  A signature lists parameters and results; each is
    placed at the next multiple of its alignment, the results start at a multiple of 8. *)
Inductive ptype := TSlice | TPtr | TU16 | TU32.
Record signature := Sig { sg_params : list (string * ptype); sg_results : list (string * ptype) }.
Definition psize (t : ptype) : Z := match t with TSlice => 24 | TPtr => 8 | TU16 => 2 | TU32 => 4 end.
Definition palign (t : ptype) : Z := match t with TSlice | TPtr => 8 | TU16 => 2 | TU32 => 4 end.
Definition up (n o : Z) : Z := (o + n - 1) / n * n.
(** offset and type of a component, and the end of the tuple *)
Fixpoint place (o : Z) (l : list (string * ptype)) : list (string * (Z * ptype)) * Z :=
  match l with
  | [] => ([], o)
  | (n, t) :: r => let o := up (palign t) o in let '(f, e) := place (o + psize t) r in ((n, (o, t)) :: f, e)
  end.
Definition param_env (s : signature) : list (string * (Z * ptype)) := fst (place 0 (sg_params s)).
Definition result_env (s : signature) : list (string * (Z * ptype)) := fst (place (up 8 (snd (place 0 (sg_params s)))) (sg_results s)).
(** the number after "$0-" in the TEXT line *)
Definition arg_bytes (s : signature) : Z :=
  match sg_results s with
  | [] => snd (place 0 (sg_params s))
  | r => snd (place (up 8 (snd (place 0 (sg_params s)))) r)
  end.
Fixpoint assoc {A} (l : list (string * A)) (n : string) : option A :=
  match l with [] => None | (k, v) :: r => if String.eqb k n then Some v else assoc r n end.

(** ** The builder: fresh registers, emitted instructions; [None] is a generator error *)
Record bstate := BState { nextG : nat; nextX : nat; emitted : list vinstr }.
Definition build (A : Type) : Type := signature -> bstate -> option (A * bstate).
Definition bret {A} (a : A) : build A := fun _ s => Some (a, s).
Definition bbind {A B} (x : build A) (f : A -> build B) : build B :=
  fun g s => match x g s with Some (a, s') => f a g s' | None => None end.
Notation "'bdo' x <- e ; k" := (bbind e (fun x => k)) (at level 100, x pattern, e at level 99, k at level 200, right associativity).
Notation "'bdo_' e ; k" := (bbind e (fun _ => k)) (at level 100, e at level 99, k at level 200, right associativity).
Definition emit (i : vinstr) : build unit := fun _ s => Some (tt, BState (nextG s) (nextX s) (emitted s ++ [i])).
(** GP64(), GP32(): narrower views of a register (As8, As16) are the operand sizes of the instructions *)
Definition GP : build nat := fun _ s => Some (nextG s, BState (S (nextG s)) (nextX s) (emitted s)).
Definition XMM : build nat := fun _ s => Some (nextX s, BState (nextG s) (S (nextX s)) (emitted s)).
(** Param(n).Resolve(), Return(n).Resolve() *)
Definition Param (n : string) : build (Z * ptype) := fun g s => option_map (fun x => (x, s)) (assoc (param_env g) n).
Definition Return (n : string) : build (Z * ptype) := fun g s => option_map (fun x => (x, s)) (assoc (result_env g) n).
Definition bfail {A} : build A := fun _ _ => None.
(** Load(Param(n), r) for a pointer or a uint16 and Load(Param(n).Base(), r) for a slice:
    avo picks MOVQ or MOVWQZX from the type *)
Definition Load (n : string) (r : nat) : build nat :=
  bdo (o, t) <- Param n;
  match t with
  | TPtr => bdo_ emit (vMOVQ_arg o r); bret r
  | TU16 => bdo_ emit (vMOVWQZX_arg o r); bret r
  | _ => bfail
  end.
Definition LoadBase (n : string) (r : nat) : build nat :=
  bdo (o, t) <- Param n;
  match t with TSlice => bdo_ emit (vMOVQ_arg o r); bret r | _ => bfail end.
(** Store(r.As16(), Return(n)) *)
Definition Store (r : nat) (n : string) : build unit :=
  bdo (o, t) <- Return n;
  match t with TU16 => emit (vMOVW_ret r o) | _ => bfail end.

(** ** pkg/shared/asm.go *)
(** shared/asm.go:9-23; the result is the base register of the address *)
Definition CalculateShuffleAddrFromCtrl (shuffleBase ctrl : nat) (upper : bool) : build nat :=
  bdo addr <- GP;
  bdo_ (if upper then bdo_ emit (vMOVWQZX ctrl addr); emit (vSHRQ 8 addr)
        else emit (vMOVBQZX ctrl addr));
  bdo_ emit (vSHLQ 4 addr);
  bdo_ emit (vADDQ shuffleBase addr);
  bret addr.
(** shared/asm.go:25-37; the address and the value use the same register *)
Definition LenValueAddr (ctrl : nat) (upper : bool) (lenTableParam : string) : build (nat * nat) :=
  bdo r <- GP;
  bdo lenTableBase <- Load lenTableParam r;
  bdo lenValueAddr <- GP;
  bdo_ (if upper then bdo_ emit (vMOVWQZX ctrl lenValueAddr); emit (vSHRQ 8 lenValueAddr)
        else emit (vMOVBQZX ctrl lenValueAddr));
  bdo_ emit (vADDQ lenTableBase lenValueAddr);
  bret (lenValueAddr, lenValueAddr).
(** shared/asm.go:39-49 *)
Definition Load8 (paramName : string) : build (nat * nat) :=
  bdo r <- GP;
  bdo arrBase <- LoadBase paramName r;
  bdo firstFour <- XMM;
  bdo secondFour <- XMM;
  bdo_ emit (vVLDDQU 0 arrBase firstFour);
  bdo_ emit (vVLDDQU 16 arrBase secondFour);
  bret (firstFour, secondFour).

(** ** pkg/encode/main/asm.go *)
(** encode/main/asm.go:25-27 *)
Definition enc_signature : signature :=
  Sig [("in", TSlice); ("outBytes", TSlice); ("shuffle", TPtr); ("lenTable", TPtr)]%string [("r", TU16)]%string.
(** encode/main/asm.go:29-31 *)
Definition enc_signatureDelta : signature :=
  Sig [("in", TSlice); ("outBytes", TSlice); ("prev", TU32); ("shuffle", TPtr); ("lenTable", TPtr)]%string [("r", TU16)]%string.
(** encode/main/asm.go:33-34 *)
Definition mask1111R : Z := 257.    (* 0x0101 *)
Definition mask7F00R : Z := 32512.  (* 0x7F00 *)
(** encode/main/asm.go:68-108; RET is the end of the list *)
Definition enc_coreAlgorithm (firstFour secondFour : nat) : build unit :=
  bdo onesMask <- XMM;
  bdo sevenFzerozero <- XMM;
  bdo_ emit (vVPBROADCASTW mask1111R onesMask);
  bdo_ emit (vVPBROADCASTW mask7F00R sevenFzerozero);
  bdo minFirstFour <- XMM;
  bdo minSecondFour <- XMM;
  bdo_ emit (vVPMINUB onesMask firstFour minFirstFour);
  bdo_ emit (vVPMINUB onesMask secondFour minSecondFour);
  bdo_ emit (vVPACKUSWB minSecondFour minFirstFour minFirstFour);
  bdo_ emit (vVPMINSW onesMask minFirstFour minFirstFour);
  bdo_ emit (vVPADDUSW sevenFzerozero minFirstFour minFirstFour);
  bdo ctrl <- GP;
  bdo_ emit (vVPMOVMSKB minFirstFour ctrl);
  bdo_ Store ctrl "r";
  bdo r <- GP;
  bdo shuffleBase <- Load "shuffle" r;
  bdo firstShuffle <- CalculateShuffleAddrFromCtrl shuffleBase ctrl false;
  bdo secondShuffle <- CalculateShuffleAddrFromCtrl shuffleBase ctrl true;
  bdo_ emit (vVPSHUFB_ld firstShuffle firstFour firstFour);
  bdo_ emit (vVPSHUFB_ld secondShuffle secondFour secondFour);
  bdo r <- GP;
  bdo firstAddr <- LoadBase "outBytes" r;
  bdo secondAddr <- GP;
  bdo_ emit (vMOVQ firstAddr secondAddr);
  bdo (lenAddr, lenValue) <- LenValueAddr ctrl false "lenTable";
  bdo_ emit (vMOVBQZX_ld lenAddr lenValue);
  bdo_ emit (vADDQ lenValue secondAddr);
  bdo_ emit (vVMOVDQU firstFour 0 firstAddr);
  emit (vVMOVDQU secondFour 0 secondAddr).
(** encode/main/asm.go:63-66 *)
Definition enc_regular : build unit :=
  bdo (firstFour, secondFour) <- Load8 "in";
  enc_coreAlgorithm firstFour secondFour.
(** encode/main/asm.go:43-61 *)
Definition enc_differential : build unit :=
  bdo (prevSingular, _) <- Param "prev";
  bdo (firstFour, secondFour) <- Load8 "in";
  bdo prev <- XMM;
  bdo_ emit (vVPALIGNR 12 firstFour secondFour prev);
  bdo_ emit (vVPSUBD prev secondFour secondFour);
  bdo_ emit (vVBROADCASTSS_arg prevSingular prev);
  bdo_ emit (vVPALIGNR 12 prev firstFour prev);
  bdo_ emit (vVPSUBD prev firstFour firstFour);
  enc_coreAlgorithm firstFour secondFour.

(** ** pkg/decode/main/asm.go *)
(** decode/main/asm.go:26-28 *)
Definition dec_signature : signature :=
  Sig [("in", TSlice); ("out", TSlice); ("ctrl", TU16); ("shuffle", TPtr); ("lenTable", TPtr)]%string [].
(** decode/main/asm.go:30-32 *)
Definition dec_signatureDelta : signature :=
  Sig [("in", TSlice); ("out", TSlice); ("ctrl", TU16); ("prev", TU32); ("shuffle", TPtr); ("lenTable", TPtr)]%string [].
(** decode/main/asm.go:86-111 *)
Definition dec_coreAlgorithm : build (nat * nat) :=
  bdo ctrl <- GP;
  bdo_ Load "ctrl" ctrl;
  bdo r <- GP;
  bdo shuffleBase <- Load "shuffle" r;
  bdo shuffleA <- CalculateShuffleAddrFromCtrl shuffleBase ctrl false;
  bdo shuffleB <- CalculateShuffleAddrFromCtrl shuffleBase ctrl true;
  bdo r <- GP;
  bdo firstBlock <- LoadBase "in" r;
  bdo secondBlock <- GP;
  bdo_ emit (vMOVQ firstBlock secondBlock);
  bdo (lowerAddr, lowerSize) <- LenValueAddr ctrl false "lenTable";
  bdo_ emit (vMOVBQZX_ld lowerAddr lowerSize);
  bdo_ emit (vADDQ lowerSize secondBlock);
  bdo firstFour <- XMM;
  bdo secondFour <- XMM;
  bdo_ emit (vVLDDQU 0 firstBlock firstFour);
  bdo_ emit (vVLDDQU 0 secondBlock secondFour);
  bdo_ emit (vVPSHUFB_ld shuffleA firstFour firstFour);
  bdo_ emit (vVPSHUFB_ld shuffleB secondFour secondFour);
  bret (firstFour, secondFour).
(** decode/main/asm.go:77-84 *)
Definition undoDelta (four prev : nat) : build unit :=
  bdo adder <- XMM;
  bdo_ emit (vVPSLLDQ 4 four adder);
  bdo_ emit (vVPADDD four adder four);
  bdo_ emit (vVPSLLDQ 8 four adder);
  bdo_ emit (vVPADDD four prev four);
  emit (vVPADDD four adder four).
(** decode/main/asm.go:41-51 *)
Definition dec_regular : build unit :=
  bdo (firstFour, secondFour) <- dec_coreAlgorithm;
  bdo r <- GP;
  bdo outBase <- LoadBase "out" r;
  bdo_ emit (vVMOVDQU firstFour 0 outBase);
  emit (vVMOVDQU secondFour 16 outBase).
(** decode/main/asm.go:53-75 *)
Definition dec_differential : build unit :=
  bdo (firstFour, secondFour) <- dec_coreAlgorithm;
  bdo (prevSingular, _) <- Param "prev";
  bdo prev <- XMM;
  bdo_ emit (vVBROADCASTSS_arg prevSingular prev);
  bdo_ undoDelta firstFour prev;
  bdo_ emit (vVPSHUFD 255 firstFour prev);
  bdo_ undoDelta secondFour prev;
  bdo r <- GP;
  bdo outBase <- LoadBase "out" r;
  bdo_ emit (vVMOVDQU firstFour 0 outBase);
  emit (vVMOVDQU secondFour 16 outBase).

(** TEXT(name, NOSPLIT, signature) starts a routine; what it consists of *)
Definition described (g : signature) (b : build unit) : option (list vinstr) :=
  option_map (fun x => emitted (snd x)) (b g (BState 0 0 [])).
