(** * pkg/util: the text means the model *)
From Coq Require Import ZArith List String Ascii Bool Lia.
From Verif Require Import GoSem Tables Shared Asm AsmProgs Encode Decode Util IntOps IntSize SourceText GoSyntax GoInterp AsmText GoProgram GoSource GoRefine SourceBase.
Import ListNotations.
Local Open Scope string_scope.
Local Open Scope list_scope.
Local Open Scope Z_scope.

(** The functions of the text. *)
Definition fn_Delta := Eval vm_compute in fnOf amd64 "util" "Delta".
Lemma d_Delta a : declared (p_decls (source a)) "util" "Delta" = Some (DFunc fn_Delta).
Proof. destruct a; vm_compute; reflexivity. Qed.
Definition fn_PutVarint := Eval vm_compute in fnOf amd64 "util" "PutVarint".
Lemma d_PutVarint a : declared (p_decls (source a)) "util" "PutVarint" = Some (DFunc fn_PutVarint).
Proof. destruct a; vm_compute; reflexivity. Qed.
Definition fn_GetVarint := Eval vm_compute in fnOf amd64 "util" "GetVarint".
Lemma d_GetVarint a : declared (p_decls (source a)) "util" "GetVarint" = Some (DFunc fn_GetVarint).
Proof. destruct a; vm_compute; reflexivity. Qed.
Definition fn_PutDeltaVarint := Eval vm_compute in fnOf amd64 "util" "PutDeltaVarint".
Lemma d_PutDeltaVarint a : declared (p_decls (source a)) "util" "PutDeltaVarint" = Some (DFunc fn_PutDeltaVarint).
Proof. destruct a; vm_compute; reflexivity. Qed.
Definition fn_GetDeltaVarint := Eval vm_compute in fnOf amd64 "util" "GetDeltaVarint".
Lemma d_GetDeltaVarint a : declared (p_decls (source a)) "util" "GetDeltaVarint" = Some (DFunc fn_GetDeltaVarint).
Proof. destruct a; vm_compute; reflexivity. Qed.

Section util.
Variables (w : Z) (Hw : 32 <= w) (a : arch) (blk : nat).
Notation callT := (callWith w a (source a) (glob w a (source a)) blk).

Lemma s_PutUvarint n b x : (1 <= n)%nat -> ref (bind (PutUvarint b x) (fun z => Ret [VInt INT z])) (callT n "binary" "PutUvarint" [VBytes b; VInt U64 x]).
Proof. intros H. more n. erewrite call_extern by reflexivity. apply ref_refl. Qed.
Lemma s_Uvarint n b : (1 <= n)%nat ->
  ref (bind (Uvarint true b) (fun r => Ret [VInt U64 (fst r); VInt INT (snd r)])) (callT n "binary" "Uvarint" [VBytes b]).
Proof. intros H. more n. erewrite call_extern by reflexivity. apply ref_refl. Qed.
Ltac callee ::=
  lazymatch goal with
  | |- ref _ (callWith _ _ _ _ _ _ _ "PutUvarint" _) => apply s_PutUvarint
  | |- ref _ (callWith _ _ _ _ _ _ _ "Uvarint" _) => apply s_Uvarint
  end; lia.

Lemma s_Delta n inp out : (S (S (Z.to_nat (s_len inp))) <= n)%nat ->
  ref (bind (DeltaN w inp out) (fun _ => Ret [])) (callT n "util" "Delta" [VWords inp; VWords out]).
Proof.
  intros H. more n. source (d_Delta a) fn_Delta. unfold DeltaN. repeat both.
  apply (ref_rloop w (fun i => i <? s_len inp) _ (fun i => i) (fun _ => [("in", VWords inp); ("out", VWords out)]) (fun _ => True));
    [reflexivity | | | lia | exact I].
  { intros i K1 K2 _ _ HK. repeat both. all: apply HK; [exact I | reflexivity]. }
  intros i _. repeat both.
Qed.
Lemma s_PutVarint n nums out : (S (S (Z.to_nat (s_len nums))) <= n)%nat ->
  ref (bind (PutVarintN w nums out) (fun z => Ret [VInt INT z])) (callT n "util" "PutVarint" [VWords nums; VBytes out]).
Proof.
  intros H. more n. source (d_PutVarint a) fn_PutVarint. unfold PutVarintN. repeat both.
  apply (ref_rloop w (fun '(i, pos) => i <? s_len nums) _ fst (fun '(_, pos) => [("pos", VInt INT pos); ("nums", VWords nums); ("out", VBytes out)]) (fun _ => True)
    _ _ _ _ ltac:(intros [i p]; reflexivity)) with (s := (0, 0)); [| | lia | exact I].
  { intros [i p] K1 K2 _ _ HK. repeat both. all: apply HK; [exact I | reflexivity]. }
  intros [i p] _. repeat both.
Qed.
Lemma s_PutDeltaVarint n nums out prev : (S (S (Z.to_nat (s_len nums))) <= n)%nat ->
  ref (bind (PutDeltaVarintN w nums out prev) (fun z => Ret [VInt INT z])) (callT n "util" "PutDeltaVarint" [VWords nums; VBytes out; VInt U32 prev]).
Proof.
  intros H. more n. source (d_PutDeltaVarint a) fn_PutDeltaVarint. unfold PutDeltaVarintN. repeat both.
  apply (ref_rloop w (fun '(i, pos, prev) => i <? s_len nums) _ (fun s => fst (fst s))
    (fun '(_, pos, prev) => [("pos", VInt INT pos); ("nums", VWords nums); ("out", VBytes out); ("prev", VInt U32 prev)]) (fun _ => True)
    _ _ _ _ ltac:(intros [[i p] q]; reflexivity)) with (s := (0, 0, prev)); [| | lia | exact I].
  { intros [[i p] q] K1 K2 _ _ HK. repeat both. all: apply HK; [exact I | reflexivity]. }
  intros [[i p] q] _. repeat both.
Qed.
Lemma s_GetVarint n data out : (S (S (S (Z.to_nat (s_len out)))) <= n)%nat ->
  ref (bind (GetVarintN w true data out) (fun z => Ret [VInt INT z])) (callT n "util" "GetVarint" [VBytes data; VWords out]).
Proof.
  intros H. more n. source (d_GetVarint a) fn_GetVarint. unfold GetVarintN. repeat both.
  match goal with |- ref _ (loop _ _ _ ?s _) =>
    let e := put_eval (fun '(x, y) => put (put s "pos" (VInt INT x)) "i" (VInt INT y)) in
    apply (ref_loop _ _ e (fun _ => True)) end; [intros [p i]; reflexivity | | | lia | exact I].
  { intros [p i] K1 K2 _ _ HK. repeat both. apply HK, I. }
  intros [p i] _ _. repeat both.
Qed.
Lemma s_GetDeltaVarint n inp out prev : (S (S (S (Z.to_nat (s_len out)))) <= n)%nat ->
  ref (bind (GetDeltaVarintN w true inp out prev) (fun z => Ret [VInt INT z])) (callT n "util" "GetDeltaVarint" [VBytes inp; VWords out; VInt U32 prev]).
Proof.
  intros H. more n. source (d_GetDeltaVarint a) fn_GetDeltaVarint. unfold GetDeltaVarintN. repeat both.
  match goal with |- ref _ (loop _ _ _ ?s _) =>
    let e := put_eval (fun '(x, y, z) => put (put (put s "pos" (VInt INT x)) "i" (VInt INT y)) "prev" (VInt U32 z)) in
    apply (ref_loop _ _ e (fun _ => True)) end; [intros [[p i] q]; reflexivity | | | lia | exact I].
  { intros [[p i] q] K1 K2 _ _ HK. repeat both. apply HK, I. }
  intros [[p i] q] _ _. repeat both.
Qed.
End util.
