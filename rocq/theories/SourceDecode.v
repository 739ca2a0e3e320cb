(** * pkg/decode: the text means the model *)
From Coq Require Import ZArith List String Ascii Bool Lia.
From Verif Require Import GoSem Tables Shared Asm AsmProgs Encode Decode Util IntOps IntSize SourceText GoSyntax GoInterp AsmText GoProgram GoSource GoRefine SourceBase SourceEncode.
Import ListNotations.
Local Open Scope string_scope.
Local Open Scope list_scope.
Local Open Scope Z_scope.

(** The functions of the text. *)
Definition fn_Get8uint32 := Eval vm_compute in fnOf amd64 "decode" "Get8uint32".
Lemma d_Get8uint32 a : declared (p_decls (source a)) "decode" "Get8uint32" = Some (DFunc fn_Get8uint32).
Proof. destruct a; vm_compute; reflexivity. Qed.
Definition fn_Get8uint32Delta := Eval vm_compute in fnOf amd64 "decode" "Get8uint32Delta".
Lemma d_Get8uint32Delta a : declared (p_decls (source a)) "decode" "Get8uint32Delta" = Some (DFunc fn_Get8uint32Delta).
Proof. destruct a; vm_compute; reflexivity. Qed.
Definition fn_Get8uint32Scalar := Eval vm_compute in fnOf amd64 "decode" "Get8uint32Scalar".
Lemma d_Get8uint32Scalar a : declared (p_decls (source a)) "decode" "Get8uint32Scalar" = Some (DFunc fn_Get8uint32Scalar).
Proof. destruct a; vm_compute; reflexivity. Qed.
Definition fn_Get4uint32Scalar := Eval vm_compute in fnOf amd64 "decode" "Get4uint32Scalar".
Lemma d_Get4uint32Scalar a : declared (p_decls (source a)) "decode" "Get4uint32Scalar" = Some (DFunc fn_Get4uint32Scalar).
Proof. destruct a; vm_compute; reflexivity. Qed.
Definition fn_GetUint32Scalar := Eval vm_compute in fnOf amd64 "decode" "GetUint32Scalar".
Lemma d_GetUint32Scalar a : declared (p_decls (source a)) "decode" "GetUint32Scalar" = Some (DFunc fn_GetUint32Scalar).
Proof. destruct a; vm_compute; reflexivity. Qed.
Definition fn_GetUint32DeltaScalar := Eval vm_compute in fnOf amd64 "decode" "GetUint32DeltaScalar".
Lemma d_GetUint32DeltaScalar a : declared (p_decls (source a)) "decode" "GetUint32DeltaScalar" = Some (DFunc fn_GetUint32DeltaScalar).
Proof. destruct a; vm_compute; reflexivity. Qed.
Definition fn_Get8uint32DeltaScalar := Eval vm_compute in fnOf amd64 "decode" "Get8uint32DeltaScalar".
Lemma d_Get8uint32DeltaScalar a : declared (p_decls (source a)) "decode" "Get8uint32DeltaScalar" = Some (DFunc fn_Get8uint32DeltaScalar).
Proof. destruct a; vm_compute; reflexivity. Qed.
Definition fn_Get4uint32DeltaScalar := Eval vm_compute in fnOf amd64 "decode" "Get4uint32DeltaScalar".
Lemma d_Get4uint32DeltaScalar a : declared (p_decls (source a)) "decode" "Get4uint32DeltaScalar" = Some (DFunc fn_Get4uint32DeltaScalar).
Proof. destruct a; vm_compute; reflexivity. Qed.
Definition fn_decodeOne := Eval vm_compute in fnOf amd64 "decode" "decodeOne".
Lemma d_decodeOne a : declared (p_decls (source a)) "decode" "decodeOne" = Some (DFunc fn_decodeOne).
Proof. destruct a; vm_compute; reflexivity. Qed.
Definition fn_decGetMode := Eval vm_compute in fnOf amd64 "decode" "GetMode".
Lemma d_decGetMode b c : declared (p_decls (source (AMD64 b c))) "decode" "GetMode" = Some (DFunc fn_decGetMode).
Proof. vm_compute. reflexivity. Qed.
Definition fn_decGetMode_base := Eval vm_compute in fnOf portable "decode" "GetMode".
Lemma d_decGetMode_base : declared (p_decls (source OtherArch)) "decode" "GetMode" = Some (DFunc fn_decGetMode_base).
Proof. vm_compute. reflexivity. Qed.
Definition fn_Get8uint32Fast := Eval vm_compute in fnOf amd64 "decode" "Get8uint32Fast".
Lemma d_Get8uint32Fast b c : declared (p_decls (source (AMD64 b c))) "decode" "Get8uint32Fast" = Some (DFunc fn_Get8uint32Fast).
Proof. vm_compute. reflexivity. Qed.
Definition fn_Get8uint32Fast_base := Eval vm_compute in fnOf portable "decode" "Get8uint32Fast".
Lemma d_Get8uint32Fast_base : declared (p_decls (source OtherArch)) "decode" "Get8uint32Fast" = Some (DFunc fn_Get8uint32Fast_base).
Proof. vm_compute. reflexivity. Qed.
Definition fn_Get8uint32DeltaFast := Eval vm_compute in fnOf amd64 "decode" "Get8uint32DeltaFast".
Lemma d_Get8uint32DeltaFast b c : declared (p_decls (source (AMD64 b c))) "decode" "Get8uint32DeltaFast" = Some (DFunc fn_Get8uint32DeltaFast).
Proof. vm_compute. reflexivity. Qed.
Definition fn_Get8uint32DeltaFast_base := Eval vm_compute in fnOf portable "decode" "Get8uint32DeltaFast".
Lemma d_Get8uint32DeltaFast_base : declared (p_decls (source OtherArch)) "decode" "Get8uint32DeltaFast" = Some (DFunc fn_Get8uint32DeltaFast_base).
Proof. vm_compute. reflexivity. Qed.
Definition fn_Get8uint32FastAsm := Eval vm_compute in fnOf amd64 "decode" "Get8uint32FastAsm".
Lemma d_Get8uint32FastAsm b c : declared (p_decls (source (AMD64 b c))) "decode" "Get8uint32FastAsm" = Some (DFunc fn_Get8uint32FastAsm).
Proof. vm_compute. reflexivity. Qed.
Definition fn_Get8uint32DeltaFastAsm := Eval vm_compute in fnOf amd64 "decode" "Get8uint32DeltaFastAsm".
Lemma d_Get8uint32DeltaFastAsm b c : declared (p_decls (source (AMD64 b c))) "decode" "Get8uint32DeltaFastAsm" = Some (DFunc fn_Get8uint32DeltaFastAsm).
Proof. vm_compute. reflexivity. Qed.

Lemma iN_u8 w z : 32 <= w -> iN w (u8 z) = u8 z.
Proof. intros Hw. apply iN_small; [exact Hw |]. unfold u8. pose proof (Z.mod_pos_bound z (2 ^ 8)). lia. Qed.

Section decode.
Variables (w : Z) (Hw : 32 <= w) (a : arch) (blk : nat).
Notation callT := (callWith w a (source a) (glob w a (source a)) blk).

Lemma s_decodeOne n b size : (1 <= n)%nat ->
  ref (bind (decodeOne b size) (fun z => Ret [VInt U32 z])) (callT n "decode" "decodeOne" [VBytes b; VInt U8 size]).
Proof.
  intros H. more n. source (d_decodeOne a) fn_decodeOne. unfold decodeOne. repeat both.
Qed.
Ltac callee ::=
  lazymatch goal with
  | |- ref _ (callWith _ _ _ _ _ _ _ "decodeOne" _) => apply s_decodeOne
  end; lia.
Ltac perNum :=
  repeat match goal with |- context [perNumLen ?c ?i] =>
    let z := constr:(Z.of_nat i) in let z := eval cbv in z in
    change (perNumLen c i) with (nth (Z.to_nat z) (nth (Z.to_nat c) PerNumLenTable []) 0) end.
Lemma s_Get4uint32Scalar n inp out ctrl : (2 <= n)%nat ->
  ref (bind (Get4uint32Scalar inp out ctrl) (fun _ => Ret [])) (callT n "decode" "Get4uint32Scalar" [VBytes inp; VWords out; VInt U8 ctrl]).
Proof.
  intros H. more n. source (d_Get4uint32Scalar a) fn_Get4uint32Scalar. unfold Get4uint32Scalar. perNum. repeat both.
Qed.
Lemma s_Get4uint32DeltaScalar n inp out ctrl prev : (2 <= n)%nat ->
  ref (bind (Get4uint32DeltaScalar inp out ctrl prev) (fun _ => Ret []))
    (callT n "decode" "Get4uint32DeltaScalar" [VBytes inp; VWords out; VInt U8 ctrl; VInt U32 prev]).
Proof.
  intros H. more n. source (d_Get4uint32DeltaScalar a) fn_Get4uint32DeltaScalar. unfold Get4uint32DeltaScalar. perNum. repeat both.
Qed.
Ltac callee ::=
  lazymatch goal with
  | |- ref _ (callWith _ _ _ _ _ _ _ "decodeOne" _) => apply s_decodeOne
  | |- ref _ (callWith _ _ _ _ _ _ _ "Get4uint32Scalar" _) => apply s_Get4uint32Scalar
  | |- ref _ (callWith _ _ _ _ _ _ _ "Get4uint32DeltaScalar" _) => apply s_Get4uint32DeltaScalar
  end; lia.
Lemma s_Get8uint32Scalar n inp out ctrl : (3 <= n)%nat ->
  ref (bind (Get8uint32Scalar inp out ctrl) (fun _ => Ret [])) (callT n "decode" "Get8uint32Scalar" [VBytes inp; VWords out; VInt U16 ctrl]).
Proof.
  intros H. more n. source (d_Get8uint32Scalar a) fn_Get8uint32Scalar. unfold Get8uint32Scalar. do 3 step. rewrite s_ControlByteToSize by lia. repeat both.
Qed.
Lemma s_Get8uint32DeltaScalar n inp out ctrl prev : (3 <= n)%nat ->
  ref (bind (Get8uint32DeltaScalar inp out ctrl prev) (fun _ => Ret []))
    (callT n "decode" "Get8uint32DeltaScalar" [VBytes inp; VWords out; VInt U16 ctrl; VInt U32 prev]).
Proof.
  intros H. more n. source (d_Get8uint32DeltaScalar a) fn_Get8uint32DeltaScalar. unfold Get8uint32DeltaScalar. do 3 step. rewrite s_ControlByteToSize by lia. repeat both.
Qed.
Lemma s_GetUint32Scalar n inp out ctrl count : (6 <= n)%nat ->
  ref (bind (GetUint32ScalarN w inp out ctrl count) (fun z => Ret [VInt INT z]))
    (callT n "decode" "GetUint32Scalar" [VBytes inp; VWords out; VInt U8 ctrl; VInt INT count]).
Proof.
  intros H. more n. source (d_GetUint32Scalar a) fn_GetUint32Scalar. unfold GetUint32ScalarN. repeat both.
  destruct (4 <? count) eqn:Hc4; repeat both.
  all: match goal with |- context [("count", VInt INT ?c)] => assert (Hc : c <= 4) by lia; clear Hc4;
    apply (ref_loop _ _ (fun '(i, shift, total) =>
      [("i", VInt INT i); ("total", VInt INT total); ("shift", VInt INT shift); ("in", VBytes inp); ("out", VWords out);
       ("ctrl", VInt U8 ctrl); ("count", VInt INT c)]) (fun '(i, shift, _) => 0 <= i <= 4 /\ shift = 2 * i)) end.
  all: try lia.
  all: intros [[i shift] total].
  1, 4: reflexivity.
  1, 3: intros K1 K2 [HP HP'] Hi HK; repeat both; rewrite (proj2 (Z.ltb_ge shift 0)) by lia; repeat both; rewrite ?iN_u8 by exact Hw; repeat both; apply HK; unfold iaddN; rewrite !iN_small; lia.
  all: intros ? ?; repeat both.
Qed.
Lemma s_GetUint32DeltaScalar n inp out ctrl count prev : (6 <= n)%nat ->
  ref (bind (GetUint32DeltaScalarN w inp out ctrl count prev) (fun z => Ret [VInt INT z]))
    (callT n "decode" "GetUint32DeltaScalar" [VBytes inp; VWords out; VInt U8 ctrl; VInt INT count; VInt U32 prev]).
Proof.
  intros H. more n. source (d_GetUint32DeltaScalar a) fn_GetUint32DeltaScalar. unfold GetUint32DeltaScalarN. repeat both.
  destruct (4 <? count) eqn:Hc4; repeat both.
  all: match goal with |- context [("count", VInt INT ?c)] => assert (Hc : c <= 4) by lia; clear Hc4;
    apply (ref_loop _ _ (fun '(i, shift, total, prev) =>
      [("i", VInt INT i); ("total", VInt INT total); ("shift", VInt INT shift); ("in", VBytes inp); ("out", VWords out);
       ("ctrl", VInt U8 ctrl); ("count", VInt INT c); ("prev", VInt U32 prev)]) (fun '(i, shift, _, _) => 0 <= i <= 4 /\ shift = 2 * i)) end.
  all: try lia.
  all: intros [[[i shift] total] p].
  1, 4: reflexivity.
  1, 3: intros K1 K2 [HP HP'] Hi HK; repeat both; rewrite (proj2 (Z.ltb_ge shift 0)) by lia; repeat both; rewrite ?iN_u8 by exact Hw; repeat both; apply HK; unfold iaddN; rewrite !iN_small; lia.
  all: intros ? ?; repeat both.
Qed.
End decode.

(** The assembly routines and the functions chosen at start-up. *)
Section amd64.
Variables (w : Z) (Hw : 32 <= w) (b c : bool) (blk : nat).
Notation a := (AMD64 b c).
Notation callT := (callWith w a (source a) (glob w a (source a)) blk).

Lemma r_Get8uint32FastAsm : option_map r_code (routineNamed (p_asm (source a)) "Get8uint32FastAsm") = Some Get8uint32FastAsm_code.
Proof. vm_compute. reflexivity. Qed.
Lemma r_Get8uint32DeltaFastAsm : option_map r_code (routineNamed (p_asm (source a)) "Get8uint32DeltaFastAsm") = Some Get8uint32DeltaFastAsm_code.
Proof. vm_compute. reflexivity. Qed.

Lemma s_Get8uint32FastAsm n inp out ctrl shuffle lenTable k k2 k3 : (1 <= n)%nat ->
  ref (bind (Get8uint32FastAsm a inp out ctrl shuffle lenTable) (fun _ => Ret []))
    (callT n "decode" "Get8uint32FastAsm" [VBytes inp; VWords out; VInt U16 ctrl; VArr2 k k2 shuffle; VArr k3 lenTable]).
Proof.
  intros H. more n. assembler (d_Get8uint32FastAsm b c) r_Get8uint32FastAsm. unfold Get8uint32FastAsm, without_result.
  apply ref_assoc, ref_same. intros z; apply ref_refl.
Qed.
Lemma s_Get8uint32DeltaFastAsm n inp out ctrl prev shuffle lenTable k k2 k3 : (1 <= n)%nat ->
  ref (bind (Get8uint32DeltaFastAsm a inp out ctrl prev shuffle lenTable) (fun _ => Ret []))
    (callT n "decode" "Get8uint32DeltaFastAsm" [VBytes inp; VWords out; VInt U16 ctrl; VInt U32 prev; VArr2 k k2 shuffle; VArr k3 lenTable]).
Proof.
  intros H. more n. assembler (d_Get8uint32DeltaFastAsm b c) r_Get8uint32DeltaFastAsm. unfold Get8uint32DeltaFastAsm, without_result.
  apply ref_assoc, ref_same. intros z; apply ref_refl.
Qed.
Ltac callee ::=
  lazymatch goal with
  | |- ref _ (callWith _ _ _ _ _ _ _ "Get8uint32FastAsm" _) => apply s_Get8uint32FastAsm
  | |- ref _ (callWith _ _ _ _ _ _ _ "Get8uint32DeltaFastAsm" _) => apply s_Get8uint32DeltaFastAsm
  end; lia.
Lemma s_Get8uint32Fast_amd64 n inp out ctrl : (2 <= n)%nat ->
  ref (bind (Get8uint32Fast a inp out ctrl) (fun _ => Ret [])) (callT n "decode" "Get8uint32Fast" [VBytes inp; VWords out; VInt U16 ctrl]).
Proof.
  intros H. more n. source (d_Get8uint32Fast b c) fn_Get8uint32Fast. unfold Get8uint32Fast. repeat both.
Qed.
Lemma s_Get8uint32DeltaFast_amd64 n inp out ctrl prev : (2 <= n)%nat ->
  ref (bind (Get8uint32DeltaFast a inp out ctrl prev) (fun _ => Ret []))
    (callT n "decode" "Get8uint32DeltaFast" [VBytes inp; VWords out; VInt U16 ctrl; VInt U32 prev]).
Proof.
  intros H. more n. source (d_Get8uint32DeltaFast b c) fn_Get8uint32DeltaFast. unfold Get8uint32DeltaFast. repeat both.
Qed.
End amd64.

Section chosen.
Variables (w : Z) (Hw : 32 <= w) (a : arch) (blk : nat).
Notation callT := (callWith w a (source a) (glob w a (source a)) blk).
Lemma s_decGetMode n : (1 <= n)%nat -> ref (Ret [VInt INT (modeZ (decGetMode a))]) (callT n "decode" "GetMode" []).
Proof.
  intros H. more n. destruct a as [b c|].
  - source (d_decGetMode b c) fn_decGetMode. destruct b; repeat both.
  - source d_decGetMode_base fn_decGetMode_base. repeat both.
Qed.
Lemma s_Get8uint32Fast n inp out ctrl : (2 <= n)%nat ->
  ref (bind (Get8uint32Fast a inp out ctrl) (fun _ => Ret [])) (callT n "decode" "Get8uint32Fast" [VBytes inp; VWords out; VInt U16 ctrl]).
Proof.
  intros H. destruct a as [b c|]; [apply s_Get8uint32Fast_amd64, H |].
  more n. source d_Get8uint32Fast_base fn_Get8uint32Fast_base. unfold Get8uint32Fast. repeat both.
Qed.
Lemma s_Get8uint32DeltaFast n inp out ctrl prev : (2 <= n)%nat ->
  ref (bind (Get8uint32DeltaFast a inp out ctrl prev) (fun _ => Ret []))
    (callT n "decode" "Get8uint32DeltaFast" [VBytes inp; VWords out; VInt U16 ctrl; VInt U32 prev]).
Proof.
  intros H. destruct a as [b c|]; [apply s_Get8uint32DeltaFast_amd64, H |].
  more n. source d_Get8uint32DeltaFast_base fn_Get8uint32DeltaFast_base. unfold Get8uint32DeltaFast. repeat both.
Qed.
Ltac callee ::=
  lazymatch goal with
  | |- ref _ (callWith _ _ _ _ _ _ _ "Get8uint32Fast" _) => apply s_Get8uint32Fast
  | |- ref _ (callWith _ _ _ _ _ _ _ "Get8uint32DeltaFast" _) => apply s_Get8uint32DeltaFast
  | |- ref _ (callWith _ _ _ _ _ _ _ "Get8uint32Scalar" _) => apply s_Get8uint32Scalar
  | |- ref _ (callWith _ _ _ _ _ _ _ "Get8uint32DeltaScalar" _) => apply s_Get8uint32DeltaScalar
  end; lia.
Lemma s_Get8uint32 n inp out ctrl : (4 <= n)%nat ->
  ref (bind (Get8uint32 a inp out ctrl) (fun _ => Ret [])) (callT n "decode" "Get8uint32" [VBytes inp; VWords out; VInt U16 ctrl]).
Proof.
  intros H. more n. source (d_Get8uint32 a) fn_Get8uint32. unfold Get8uint32. step. destruct (decGetMode a); repeat both.
Qed.
Lemma s_Get8uint32Delta n inp out ctrl prev : (4 <= n)%nat ->
  ref (bind (Get8uint32Delta a inp out ctrl prev) (fun _ => Ret []))
    (callT n "decode" "Get8uint32Delta" [VBytes inp; VWords out; VInt U16 ctrl; VInt U32 prev]).
Proof.
  intros H. more n. source (d_Get8uint32Delta a) fn_Get8uint32Delta. unfold Get8uint32Delta. step. destruct (decGetMode a); repeat both.
Qed.
End chosen.
