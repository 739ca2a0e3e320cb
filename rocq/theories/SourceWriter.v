(** * pkg/stream/writer: the text means the model *)
From Coq Require Import ZArith List String Ascii Bool Lia.
From Verif Require Import GoSem Tables Shared Asm AsmProgs Encode Decode Writer IntOps IntSize SourceText GoSyntax GoInterp AsmText GoProgram GoSource GoRefine SourceBase SourceEncode SourceDecode.
Import ListNotations.
Local Open Scope string_scope.
Local Open Scope list_scope.
Local Open Scope Z_scope.

(** The functions of the text. *)
Definition fn_WriteAll := Eval vm_compute in fnOf amd64 "writer" "WriteAll".
Lemma d_WriteAll a : declared (p_decls (source a)) "writer" "WriteAll" = Some (DFunc fn_WriteAll).
Proof. destruct a; vm_compute; reflexivity. Qed.
Definition fn_WriteAllDelta := Eval vm_compute in fnOf amd64 "writer" "WriteAllDelta".
Lemma d_WriteAllDelta a : declared (p_decls (source a)) "writer" "WriteAllDelta" = Some (DFunc fn_WriteAllDelta).
Proof. destruct a; vm_compute; reflexivity. Qed.
Definition fn_WriteAllScalar := Eval vm_compute in fnOf amd64 "writer" "WriteAllScalar".
Lemma d_WriteAllScalar a : declared (p_decls (source a)) "writer" "WriteAllScalar" = Some (DFunc fn_WriteAllScalar).
Proof. destruct a; vm_compute; reflexivity. Qed.
Definition fn_WriteAllDeltaScalar := Eval vm_compute in fnOf amd64 "writer" "WriteAllDeltaScalar".
Lemma d_WriteAllDeltaScalar a : declared (p_decls (source a)) "writer" "WriteAllDeltaScalar" = Some (DFunc fn_WriteAllDeltaScalar).
Proof. destruct a; vm_compute; reflexivity. Qed.
Definition fn_WriteAllFast := Eval vm_compute in fnOf amd64 "writer" "WriteAllFast".
Lemma d_WriteAllFast b c : declared (p_decls (source (AMD64 b c))) "writer" "WriteAllFast" = Some (DFunc fn_WriteAllFast).
Proof. vm_compute. reflexivity. Qed.
Definition fn_WriteAllDeltaFast := Eval vm_compute in fnOf amd64 "writer" "WriteAllDeltaFast".
Lemma d_WriteAllDeltaFast b c : declared (p_decls (source (AMD64 b c))) "writer" "WriteAllDeltaFast" = Some (DFunc fn_WriteAllDeltaFast).
Proof. vm_compute. reflexivity. Qed.
Definition fn_WriteAllFast_base := Eval vm_compute in fnOf portable "writer" "WriteAllFast".
Lemma d_WriteAllFast_base : declared (p_decls (source OtherArch)) "writer" "WriteAllFast" = Some (DFunc fn_WriteAllFast_base).
Proof. vm_compute. reflexivity. Qed.

Ltac callee ::=
  lazymatch goal with
  | |- ref _ (callWith _ _ _ _ _ _ _ "Put4uint32Scalar" _) => apply s_Put4uint32Scalar
  | |- ref _ (callWith _ _ _ _ _ _ _ "Put4uint32DeltaScalar" _) => apply s_Put4uint32DeltaScalar
  | |- ref _ (callWith _ _ _ _ _ _ _ "PutUint32Scalar" _) => apply s_PutUint32Scalar
  | |- ref _ (callWith _ _ _ _ _ _ _ "PutUint32DeltaScalar" _) => apply s_PutUint32DeltaScalar
  | |- ref _ (callWith _ _ _ _ _ _ _ "Put8uint32FastAsm" _) => apply s_Put8uint32FastAsm
  | |- ref _ (callWith _ _ _ _ _ _ _ "Put8uint32DeltaFastAsm" _) => apply s_Put8uint32DeltaFastAsm
  end; lia.
Ltac ranged ::= unfold Put8uint32FastAsm, Put8uint32DeltaFastAsm; apply asm_range.
(** As [both], also evaluating the size of a control byte. *)
Ltac sized := both; rewrite ?s_ControlByteToSize by lia; rewrite ?s_ControlByteToSizeTwo by lia.

(** The constants of the model. *)
Lemma jump1 w : 32 <= w -> isubN w jump 1 = 15.
Proof. intros H. apply iN_small; [exact H | unfold jump; lia]. Qed.
Ltac constants := match goal with H : 32 <= ?w |- _ => rewrite ?(jump1 w H) end; change jumpCtrl with 4; change jump with 16; change MaxBytesPerNum with 4.

Section writer.
Variables (w : Z) (Hw : 32 <= w) (a : arch) (blk : nat).
Notation callT := (callWith w a (source a) (glob w a (source a)) blk).

Lemma s_WriteAllScalar n inp : (wfuel inp + 10 <= n)%nat ->
  ref (bind (WriteAllScalarN w blk inp) (fun s => Ret [VBytes s])) (callT n "writer" "WriteAllScalar" [VWords inp]).
Proof.
  intros H. more n. source (d_WriteAllScalar a) fn_WriteAllScalar. unfold WriteAllScalarN. constants. repeat sized.
  loop3 "dataPos" "ctrlPos" "encoded"; [intros [[x y] z]; reflexivity | | | lia | exact I].
  { intros [[x y] z] K1 K2 _ _ HK. repeat sized. apply HK, I. }
  intros [[x y] z] _ _. repeat sized.
  loop3 "dataPos" "ctrlPos" "encoded"; [intros [[x' y'] z']; reflexivity | | | lia | exact I].
  { intros [[x' y'] z'] K1 K2 _ _ HK. repeat sized. apply HK, I. }
  intros [[x' y'] z'] _ _. repeat sized.
Qed.
Lemma s_WriteAllDeltaScalar n inp prev : (wfuel inp + 10 <= n)%nat ->
  ref (bind (WriteAllDeltaScalarN w blk inp prev) (fun s => Ret [VBytes s])) (callT n "writer" "WriteAllDeltaScalar" [VWords inp; VInt U32 prev]).
Proof.
  intros H. more n. source (d_WriteAllDeltaScalar a) fn_WriteAllDeltaScalar. unfold WriteAllDeltaScalarN. constants. repeat sized.
  loop4 "dataPos" "ctrlPos" "encoded" "prev"; [intros [[[x y] z] p]; reflexivity | | | lia | exact I].
  { intros [[[x y] z] p] K1 K2 _ _ HK. repeat sized. apply HK, I. }
  intros [[[x y] z] p] _ _. repeat sized.
  loop4 "dataPos" "ctrlPos" "encoded" "prev"; [intros [[[x' y'] z'] p']; reflexivity | | | lia | exact I].
  { intros [[[x' y'] z'] p'] K1 K2 _ _ HK. repeat sized. apply HK, I. }
  intros [[[x' y'] z'] p'] _ _. repeat sized.
Qed.
End writer.

Section amd64.
Variables (w : Z) (Hw : 32 <= w) (b c : bool) (blk : nat).
Notation a := (AMD64 b c).
Notation callT := (callWith w a (source a) (glob w a (source a)) blk).

Lemma s_WriteAllFast_amd64 n inp : (wfuel inp + 10 <= n)%nat ->
  ref (bind (WriteAllFastN w a blk inp) (fun s => Ret [VBytes s])) (callT n "writer" "WriteAllFast" [VWords inp]).
Proof.
  intros H. more n. source (d_WriteAllFast b c) fn_WriteAllFast. unfold WriteAllFastN. constants. repeat sized.
  loop3 "dataPos" "ctrlPos" "encoded"; [intros [[x y] z]; reflexivity | | | lia | exact I].
  { intros [[x y] z] K1 K2 _ _ HK. repeat sized. apply HK, I. }
  intros [[x y] z] _ _. repeat sized.
  loop3 "dataPos" "ctrlPos" "encoded"; [intros [[x' y'] z']; reflexivity | | | lia | exact I].
  { intros [[x' y'] z'] K1 K2 _ _ HK. repeat sized. apply HK, I. }
  intros [[x' y'] z'] _ _. repeat sized.
  loop3 "dataPos" "ctrlPos" "encoded"; [intros [[x1 y1] z1]; reflexivity | | | lia | exact I].
  { intros [[x1 y1] z1] K1 K2 _ _ HK. repeat sized. destruct (4 <? _); repeat sized; apply HK, I. }
  intros [[x1 y1] z1] _ _. repeat sized.
Qed.
Lemma s_WriteAllDeltaFast_amd64 n inp prev : (wfuel inp + 10 <= n)%nat ->
  ref (bind (WriteAllDeltaFastN w a blk inp prev) (fun s => Ret [VBytes s])) (callT n "writer" "WriteAllDeltaFast" [VWords inp; VInt U32 prev]).
Proof.
  intros H. more n. source (d_WriteAllDeltaFast b c) fn_WriteAllDeltaFast. unfold WriteAllDeltaFastN. constants. repeat sized.
  loop4 "dataPos" "ctrlPos" "encoded" "prev"; [intros [[[x y] z] p]; reflexivity | | | lia | exact I].
  { intros [[[x y] z] p] K1 K2 _ _ HK. repeat sized. apply HK, I. }
  intros [[[x y] z] p] _ _. repeat sized.
  loop4 "dataPos" "ctrlPos" "encoded" "prev"; [intros [[[x' y'] z'] p']; reflexivity | | | lia | exact I].
  { intros [[[x' y'] z'] p'] K1 K2 _ _ HK. repeat sized. apply HK, I. }
  intros [[[x' y'] z'] p'] _ _. repeat sized.
  loop4 "dataPos" "ctrlPos" "encoded" "prev"; [intros [[[x1 y1] z1] p1]; reflexivity | | | lia | exact I].
  { intros [[[x1 y1] z1] p1] K1 K2 _ _ HK. repeat sized. destruct (4 <? _); repeat sized; apply HK, I. }
  intros [[[x1 y1] z1] p1] _ _. repeat sized.
Qed.
End amd64.

Section chosen.
Variables (w : Z) (Hw : 32 <= w) (a : arch) (blk : nat).
Notation callT := (callWith w a (source a) (glob w a (source a)) blk).
Lemma s_WriteAllFast n inp : (wfuel inp + 10 <= n)%nat ->
  ref (bind (WriteAllFastN w a blk inp) (fun s => Ret [VBytes s])) (callT n "writer" "WriteAllFast" [VWords inp]).
Proof.
  intros H. destruct a as [b c|]; [apply s_WriteAllFast_amd64; assumption |].
  more n. source d_WriteAllFast_base fn_WriteAllFast_base. unfold WriteAllFastN. repeat both.
Qed.
Lemma e_encGetMode n : (1 <= n)%nat -> callT n "encode" "GetMode" [] = Ret [VInt INT (modeZ (encGetMode a))].
Proof. intros H. pose proof (s_encGetMode w a blk n H) as E. inversion E. reflexivity. Qed.
(** On other architectures WriteAllDeltaFast does not exist (see C39), but there GetMode does
    not choose it. *)
Ltac callee ::=
  lazymatch goal with
  | |- ref _ (callWith _ _ _ _ _ _ _ "WriteAllFast" _) => apply s_WriteAllFast
  | |- ref _ (callWith _ _ _ _ _ _ _ "WriteAllScalar" _) => apply s_WriteAllScalar
  | |- ref _ (callWith _ _ _ _ _ _ _ "WriteAllDeltaFast" _) => apply s_WriteAllDeltaFast_amd64
  | |- ref _ (callWith _ _ _ _ _ _ _ "WriteAllDeltaScalar" _) => apply s_WriteAllDeltaScalar
  end; lia.
Lemma s_WriteAll n inp : (wfuel inp + 11 <= n)%nat ->
  ref (bind (WriteAllN w a blk inp) (fun s => Ret [VBytes s])) (callT n "writer" "WriteAll" [VWords inp]).
Proof.
  intros H. more n. source (d_WriteAll a) fn_WriteAll. unfold WriteAllN. step. rewrite e_encGetMode by lia.
  destruct (encGetMode a); cbv [modeZ]; both; cbv [Z.eqb Pos.eqb]; globals; eval_source; repeat both.
Qed.
Lemma s_WriteAllDelta n inp prev : (wfuel inp + 11 <= n)%nat ->
  ref (bind (WriteAllDeltaN w a blk inp prev) (fun s => Ret [VBytes s])) (callT n "writer" "WriteAllDelta" [VWords inp; VInt U32 prev]).
Proof.
  intros H. more n. source (d_WriteAllDelta a) fn_WriteAllDelta. unfold WriteAllDeltaN. step. rewrite e_encGetMode by lia.
  destruct a as [b c|]; [| cbv [modeZ encGetMode]; both; cbv [Z.eqb Pos.eqb]; globals; eval_source; repeat both].
  destruct (encGetMode (AMD64 b c)); cbv [modeZ]; both; cbv [Z.eqb Pos.eqb]; globals; eval_source; repeat both.
Qed.
End chosen.
