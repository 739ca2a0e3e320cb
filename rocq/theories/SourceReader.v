(** * pkg/stream/reader: the text means the model *)
From Coq Require Import ZArith List String Ascii Bool Lia.
From Verif Require Import GoSem Tables Shared Asm AsmProgs Encode Decode Reader IntOps IntSize SourceText GoSyntax GoInterp AsmText GoProgram GoSource GoRefine SourceBase SourceEncode SourceDecode.
Import ListNotations.
Local Open Scope string_scope.
Local Open Scope list_scope.
Local Open Scope Z_scope.

(** The functions of the text. *)
Definition fn_ReadAll := Eval vm_compute in fnOf amd64 "reader" "ReadAll".
Lemma d_ReadAll a : declared (p_decls (source a)) "reader" "ReadAll" = Some (DFunc fn_ReadAll).
Proof. destruct a; vm_compute; reflexivity. Qed.
Definition fn_ReadAllDelta := Eval vm_compute in fnOf amd64 "reader" "ReadAllDelta".
Lemma d_ReadAllDelta a : declared (p_decls (source a)) "reader" "ReadAllDelta" = Some (DFunc fn_ReadAllDelta).
Proof. destruct a; vm_compute; reflexivity. Qed.
Definition fn_ReadAllScalar := Eval vm_compute in fnOf amd64 "reader" "ReadAllScalar".
Lemma d_ReadAllScalar a : declared (p_decls (source a)) "reader" "ReadAllScalar" = Some (DFunc fn_ReadAllScalar).
Proof. destruct a; vm_compute; reflexivity. Qed.
Definition fn_ReadAllDeltaScalar := Eval vm_compute in fnOf amd64 "reader" "ReadAllDeltaScalar".
Lemma d_ReadAllDeltaScalar a : declared (p_decls (source a)) "reader" "ReadAllDeltaScalar" = Some (DFunc fn_ReadAllDeltaScalar).
Proof. destruct a; vm_compute; reflexivity. Qed.
Definition fn_ReadAllFast := Eval vm_compute in fnOf amd64 "reader" "ReadAllFast".
Lemma d_ReadAllFast b c : declared (p_decls (source (AMD64 b c))) "reader" "ReadAllFast" = Some (DFunc fn_ReadAllFast).
Proof. vm_compute. reflexivity. Qed.
Definition fn_ReadAllDeltaFast := Eval vm_compute in fnOf amd64 "reader" "ReadAllDeltaFast".
Lemma d_ReadAllDeltaFast b c : declared (p_decls (source (AMD64 b c))) "reader" "ReadAllDeltaFast" = Some (DFunc fn_ReadAllDeltaFast).
Proof. vm_compute. reflexivity. Qed.
Definition fn_ReadAllFast_base := Eval vm_compute in fnOf portable "reader" "ReadAllFast".
Lemma d_ReadAllFast_base : declared (p_decls (source OtherArch)) "reader" "ReadAllFast" = Some (DFunc fn_ReadAllFast_base).
Proof. vm_compute. reflexivity. Qed.

Ltac callee ::=
  lazymatch goal with
  | |- ref _ (callWith _ _ _ _ _ _ _ "Get4uint32Scalar" _) => apply s_Get4uint32Scalar
  | |- ref _ (callWith _ _ _ _ _ _ _ "Get4uint32DeltaScalar" _) => apply s_Get4uint32DeltaScalar
  | |- ref _ (callWith _ _ _ _ _ _ _ "GetUint32Scalar" _) => apply s_GetUint32Scalar
  | |- ref _ (callWith _ _ _ _ _ _ _ "GetUint32DeltaScalar" _) => apply s_GetUint32DeltaScalar
  | |- ref _ (callWith _ _ _ _ _ _ _ "Get8uint32FastAsm" _) => apply s_Get8uint32FastAsm
  | |- ref _ (callWith _ _ _ _ _ _ _ "Get8uint32DeltaFastAsm" _) => apply s_Get8uint32DeltaFastAsm
  end; lia.
(** As [both], also evaluating the size of a control byte. *)
Ltac sized := both; rewrite ?s_ControlByteToSize by lia.
(** The constants of the model. *)
Lemma jump1 w : 32 <= w -> isubN w jump 1 = 15.
Proof. intros H. apply iN_small; [exact H | unfold jump; lia]. Qed.
Ltac constants := match goal with H : 32 <= ?w |- _ => rewrite ?(jump1 w H) end; change jumpCtrl with 4; change jump with 16.

Section reader.
Variables (w : Z) (Hw : 32 <= w) (a : arch) (blk : nat).
Notation callT := (callWith w a (source a) (glob w a (source a)) blk).

Lemma s_ReadAllScalar n count stream out : (rfuel stream out + 10 <= n)%nat ->
  ref (bind (ReadAllScalarN w count stream out) (fun _ => Ret [])) (callT n "reader" "ReadAllScalar" [VInt INT count; VBytes stream; VWords out]).
Proof.
  intros H. more n. source (d_ReadAllScalar a) fn_ReadAllScalar. unfold ReadAllScalarN. constants. repeat sized.
  loop3 "dataPos" "ctrlPos" "decoded"; [intros [[x y] z]; reflexivity | | | lia | exact I].
  { intros [[x y] z] K1 K2 _ _ HK. repeat sized. apply HK, I. }
  intros [[x y] z] _ _. repeat sized.
  loop3 "dataPos" "ctrlPos" "decoded"; [intros [[x' y'] z']; reflexivity | | | lia | exact I].
  { intros [[x' y'] z'] K1 K2 _ _ HK. repeat sized. apply HK, I. }
  intros [[x' y'] z'] _ _. repeat sized.
Qed.
Lemma s_ReadAllDeltaScalar n count stream out prev : (rfuel stream out + 10 <= n)%nat ->
  ref (bind (ReadAllDeltaScalarN w count stream out prev) (fun _ => Ret []))
    (callT n "reader" "ReadAllDeltaScalar" [VInt INT count; VBytes stream; VWords out; VInt U32 prev]).
Proof.
  intros H. more n. source (d_ReadAllDeltaScalar a) fn_ReadAllDeltaScalar. unfold ReadAllDeltaScalarN. constants. repeat sized.
  loop4 "dataPos" "ctrlPos" "decoded" "prev"; [intros [[[x y] z] p]; reflexivity | | | lia | exact I].
  { intros [[[x y] z] p] K1 K2 _ _ HK. repeat sized. apply HK, I. }
  intros [[[x y] z] p] _ _. repeat sized.
  loop4 "dataPos" "ctrlPos" "decoded" "prev"; [intros [[[x' y'] z'] p']; reflexivity | | | lia | exact I].
  { intros [[[x' y'] z'] p'] K1 K2 _ _ HK. repeat sized. apply HK, I. }
  intros [[[x' y'] z'] p'] _ _. repeat sized.
Qed.
End reader.

Section amd64.
Variables (w : Z) (Hw : 32 <= w) (b c : bool) (blk : nat).
Notation a := (AMD64 b c).
Notation callT := (callWith w a (source a) (glob w a (source a)) blk).

Lemma s_ReadAllFast_amd64 n count stream out : (rfuel stream out + 10 <= n)%nat ->
  ref (bind (ReadAllFastN w a count stream out) (fun _ => Ret [])) (callT n "reader" "ReadAllFast" [VInt INT count; VBytes stream; VWords out]).
Proof.
  intros H. more n. source (d_ReadAllFast b c) fn_ReadAllFast. unfold ReadAllFastN, ctrl16. constants. repeat sized.
  loop3 "dataPos" "ctrlPos" "decoded"; [intros [[x y] z]; reflexivity | | | lia | exact I].
  { intros [[x y] z] K1 K2 _ _ HK. repeat sized. apply HK, I. }
  intros [[x y] z] _ _. repeat sized.
  loop3 "dataPos" "ctrlPos" "decoded"; [intros [[x' y'] z']; reflexivity | | | lia | exact I].
  { intros [[x' y'] z'] K1 K2 _ _ HK. repeat sized. apply HK, I. }
  intros [[x' y'] z'] _ _. repeat sized.
  loop3 "dataPos" "ctrlPos" "decoded"; [intros [[x1 y1] z1]; reflexivity | | | lia | exact I].
  { intros [[x1 y1] z1] K1 K2 _ _ HK. repeat sized. destruct (4 <? _); repeat sized; apply HK, I. }
  intros [[x1 y1] z1] _ _. repeat sized.
Qed.
Lemma s_ReadAllDeltaFast_amd64 n count stream out prev : (rfuel stream out + 10 <= n)%nat ->
  ref (bind (ReadAllDeltaFastN w a count stream out prev) (fun _ => Ret []))
    (callT n "reader" "ReadAllDeltaFast" [VInt INT count; VBytes stream; VWords out; VInt U32 prev]).
Proof.
  intros H. more n. source (d_ReadAllDeltaFast b c) fn_ReadAllDeltaFast. unfold ReadAllDeltaFastN, ctrl16. constants. repeat sized.
  loop4 "dataPos" "ctrlPos" "decoded" "prev"; [intros [[[x y] z] p]; reflexivity | | | lia | exact I].
  { intros [[[x y] z] p] K1 K2 _ _ HK. repeat sized. apply HK, I. }
  intros [[[x y] z] p] _ _. repeat sized.
  loop4 "dataPos" "ctrlPos" "decoded" "prev"; [intros [[[x' y'] z'] p']; reflexivity | | | lia | exact I].
  { intros [[[x' y'] z'] p'] K1 K2 _ _ HK. repeat sized. apply HK, I. }
  intros [[[x' y'] z'] p'] _ _. repeat sized.
  loop4 "dataPos" "ctrlPos" "decoded" "prev"; [intros [[[x1 y1] z1] p1]; reflexivity | | | lia | exact I].
  { intros [[[x1 y1] z1] p1] K1 K2 _ _ HK. repeat sized. destruct (4 <? _); repeat sized; apply HK, I. }
  intros [[[x1 y1] z1] p1] _ _. repeat sized.
Qed.
End amd64.

Section chosen.
Variables (w : Z) (Hw : 32 <= w) (a : arch) (blk : nat).
Notation callT := (callWith w a (source a) (glob w a (source a)) blk).
Lemma s_ReadAllFast n count stream out : (rfuel stream out + 10 <= n)%nat ->
  ref (bind (ReadAllFastN w a count stream out) (fun _ => Ret [])) (callT n "reader" "ReadAllFast" [VInt INT count; VBytes stream; VWords out]).
Proof.
  intros H. destruct a as [b c|]; [apply s_ReadAllFast_amd64; assumption |].
  more n. source d_ReadAllFast_base fn_ReadAllFast_base. unfold ReadAllFastN. repeat both.
Qed.
Lemma e_decGetMode n : (1 <= n)%nat -> callT n "decode" "GetMode" [] = Ret [VInt INT (modeZ (decGetMode a))].
Proof. intros H. pose proof (s_decGetMode w a blk n H) as E. inversion E. reflexivity. Qed.
(** On other architectures ReadAllDeltaFast does not exist (see C39), but there GetMode does
    not choose it. *)
Ltac callee ::=
  lazymatch goal with
  | |- ref _ (callWith _ _ _ _ _ _ _ "ReadAllFast" _) => apply s_ReadAllFast
  | |- ref _ (callWith _ _ _ _ _ _ _ "ReadAllScalar" _) => apply s_ReadAllScalar
  | |- ref _ (callWith _ _ _ _ _ _ _ "ReadAllDeltaFast" _) => apply s_ReadAllDeltaFast_amd64
  | |- ref _ (callWith _ _ _ _ _ _ _ "ReadAllDeltaScalar" _) => apply s_ReadAllDeltaScalar
  end; lia.
Lemma s_ReadAll n count stream out : (rfuel stream out + 11 <= n)%nat ->
  ref (bind (ReadAllN w a count stream out) (fun _ => Ret [])) (callT n "reader" "ReadAll" [VInt INT count; VBytes stream; VWords out]).
Proof.
  intros H. more n. source (d_ReadAll a) fn_ReadAll. unfold ReadAllN. step. rewrite e_decGetMode by lia.
  destruct (decGetMode a); cbv [modeZ]; both; cbv [Z.eqb Pos.eqb]; globals; eval_source; repeat both.
Qed.
Lemma s_ReadAllDelta n count stream out prev : (rfuel stream out + 11 <= n)%nat ->
  ref (bind (ReadAllDeltaN w a count stream out prev) (fun _ => Ret []))
    (callT n "reader" "ReadAllDelta" [VInt INT count; VBytes stream; VWords out; VInt U32 prev]).
Proof.
  intros H. more n. source (d_ReadAllDelta a) fn_ReadAllDelta. unfold ReadAllDeltaN. step. rewrite e_decGetMode by lia.
  destruct a as [b c|]; [| cbv [modeZ decGetMode]; both; cbv [Z.eqb Pos.eqb]; globals; eval_source; repeat both].
  destruct (decGetMode (AMD64 b c)); cbv [modeZ]; both; cbv [Z.eqb Pos.eqb]; globals; eval_source; repeat both.
Qed.
End chosen.
