(** * pkg/shared and pkg/encode: the text means the model *)
From Coq Require Import ZArith List String Ascii Bool Lia.
From Verif Require Import GoSem Tables Shared Asm AsmProgs Encode Decode Util IntOps IntSize SourceText GoSyntax GoInterp AsmText GoProgram GoSource GoRefine SourceBase.
Import ListNotations.
Local Open Scope string_scope.
Local Open Scope list_scope.
Local Open Scope Z_scope.

(** The functions of the text. *)
Definition fn_ControlByteToSize := Eval vm_compute in fnOf amd64 "shared" "ControlByteToSize".
Lemma d_ControlByteToSize a : declared (p_decls (source a)) "shared" "ControlByteToSize" = Some (DFunc fn_ControlByteToSize).
Proof. destruct a; vm_compute; reflexivity. Qed.
Definition fn_ControlByteToSizeTwo := Eval vm_compute in fnOf amd64 "shared" "ControlByteToSizeTwo".
Lemma d_ControlByteToSizeTwo a : declared (p_decls (source a)) "shared" "ControlByteToSizeTwo" = Some (DFunc fn_ControlByteToSizeTwo).
Proof. destruct a; vm_compute; reflexivity. Qed.
Definition fn_Put8uint32 := Eval vm_compute in fnOf amd64 "encode" "Put8uint32".
Lemma d_Put8uint32 a : declared (p_decls (source a)) "encode" "Put8uint32" = Some (DFunc fn_Put8uint32).
Proof. destruct a; vm_compute; reflexivity. Qed.
Definition fn_Put8uint32Delta := Eval vm_compute in fnOf amd64 "encode" "Put8uint32Delta".
Lemma d_Put8uint32Delta a : declared (p_decls (source a)) "encode" "Put8uint32Delta" = Some (DFunc fn_Put8uint32Delta).
Proof. destruct a; vm_compute; reflexivity. Qed.
Definition fn_PutUint32Scalar := Eval vm_compute in fnOf amd64 "encode" "PutUint32Scalar".
Lemma d_PutUint32Scalar a : declared (p_decls (source a)) "encode" "PutUint32Scalar" = Some (DFunc fn_PutUint32Scalar).
Proof. destruct a; vm_compute; reflexivity. Qed.
Definition fn_PutUint32DeltaScalar := Eval vm_compute in fnOf amd64 "encode" "PutUint32DeltaScalar".
Lemma d_PutUint32DeltaScalar a : declared (p_decls (source a)) "encode" "PutUint32DeltaScalar" = Some (DFunc fn_PutUint32DeltaScalar).
Proof. destruct a; vm_compute; reflexivity. Qed.
Definition fn_Put8uint32Scalar := Eval vm_compute in fnOf amd64 "encode" "Put8uint32Scalar".
Lemma d_Put8uint32Scalar a : declared (p_decls (source a)) "encode" "Put8uint32Scalar" = Some (DFunc fn_Put8uint32Scalar).
Proof. destruct a; vm_compute; reflexivity. Qed.
Definition fn_Put4uint32Scalar := Eval vm_compute in fnOf amd64 "encode" "Put4uint32Scalar".
Lemma d_Put4uint32Scalar a : declared (p_decls (source a)) "encode" "Put4uint32Scalar" = Some (DFunc fn_Put4uint32Scalar).
Proof. destruct a; vm_compute; reflexivity. Qed.
Definition fn_Put8uint32DeltaScalar := Eval vm_compute in fnOf amd64 "encode" "Put8uint32DeltaScalar".
Lemma d_Put8uint32DeltaScalar a : declared (p_decls (source a)) "encode" "Put8uint32DeltaScalar" = Some (DFunc fn_Put8uint32DeltaScalar).
Proof. destruct a; vm_compute; reflexivity. Qed.
Definition fn_Put4uint32DeltaScalar := Eval vm_compute in fnOf amd64 "encode" "Put4uint32DeltaScalar".
Lemma d_Put4uint32DeltaScalar a : declared (p_decls (source a)) "encode" "Put4uint32DeltaScalar" = Some (DFunc fn_Put4uint32DeltaScalar).
Proof. destruct a; vm_compute; reflexivity. Qed.
Definition fn_encodeOne := Eval vm_compute in fnOf amd64 "encode" "encodeOne".
Lemma d_encodeOne a : declared (p_decls (source a)) "encode" "encodeOne" = Some (DFunc fn_encodeOne).
Proof. destruct a; vm_compute; reflexivity. Qed.
Definition fn_max := Eval vm_compute in fnOf amd64 "encode" "max".
Lemma d_max a : declared (p_decls (source a)) "encode" "max" = Some (DFunc fn_max).
Proof. destruct a; vm_compute; reflexivity. Qed.
Definition fn_encGetMode := Eval vm_compute in fnOf amd64 "encode" "GetMode".
Lemma d_encGetMode b c : declared (p_decls (source (AMD64 b c))) "encode" "GetMode" = Some (DFunc fn_encGetMode).
Proof. vm_compute. reflexivity. Qed.
Definition fn_encGetMode_base := Eval vm_compute in fnOf portable "encode" "GetMode".
Lemma d_encGetMode_base : declared (p_decls (source OtherArch)) "encode" "GetMode" = Some (DFunc fn_encGetMode_base).
Proof. vm_compute. reflexivity. Qed.
Definition fn_Put8uint32Fast := Eval vm_compute in fnOf amd64 "encode" "Put8uint32Fast".
Lemma d_Put8uint32Fast b c : declared (p_decls (source (AMD64 b c))) "encode" "Put8uint32Fast" = Some (DFunc fn_Put8uint32Fast).
Proof. vm_compute. reflexivity. Qed.
Definition fn_Put8uint32Fast_base := Eval vm_compute in fnOf portable "encode" "Put8uint32Fast".
Lemma d_Put8uint32Fast_base : declared (p_decls (source OtherArch)) "encode" "Put8uint32Fast" = Some (DFunc fn_Put8uint32Fast_base).
Proof. vm_compute. reflexivity. Qed.
Definition fn_Put8uint32DeltaFast := Eval vm_compute in fnOf amd64 "encode" "Put8uint32DeltaFast".
Lemma d_Put8uint32DeltaFast b c : declared (p_decls (source (AMD64 b c))) "encode" "Put8uint32DeltaFast" = Some (DFunc fn_Put8uint32DeltaFast).
Proof. vm_compute. reflexivity. Qed.
Definition fn_Put8uint32DeltaFast_base := Eval vm_compute in fnOf portable "encode" "Put8uint32DeltaFast".
Lemma d_Put8uint32DeltaFast_base : declared (p_decls (source OtherArch)) "encode" "Put8uint32DeltaFast" = Some (DFunc fn_Put8uint32DeltaFast_base).
Proof. vm_compute. reflexivity. Qed.
Definition fn_Put8uint32FastAsm := Eval vm_compute in fnOf amd64 "encode" "Put8uint32FastAsm".
Lemma d_Put8uint32FastAsm b c : declared (p_decls (source (AMD64 b c))) "encode" "Put8uint32FastAsm" = Some (DFunc fn_Put8uint32FastAsm).
Proof. vm_compute. reflexivity. Qed.
Definition fn_Put8uint32DeltaFastAsm := Eval vm_compute in fnOf amd64 "encode" "Put8uint32DeltaFastAsm".
Lemma d_Put8uint32DeltaFastAsm b c : declared (p_decls (source (AMD64 b c))) "encode" "Put8uint32DeltaFastAsm" = Some (DFunc fn_Put8uint32DeltaFastAsm).
Proof. vm_compute. reflexivity. Qed.

Lemma i64_small z : - 2 ^ 63 <= z < 2 ^ 63 -> i64 z = z.
Proof. intros H. unfold i64. rewrite Z.mod_small; lia. Qed.
Lemma table_range c : 0 <= nth c PerControlLenTable 0 < 256.
Proof.
  assert (K : Forall (fun z => 0 <= z < 256) PerControlLenTable).
  { apply Forall_forall. assert (F : forallb (fun z => (0 <=? z) && (z <? 256)) PerControlLenTable = true) by (vm_compute; reflexivity).
    rewrite forallb_forall in F. intros z Hz. specialize (F z Hz). lia. }
  rewrite Forall_forall in K. destruct (nth_in_or_default c PerControlLenTable 0) as [H | H]; [apply K, H | lia].
Qed.

(** The result of an assembly routine is a uint16. *)
Definition ret16 (s : astate) : Prop := forall z, aret s = Some z -> 0 <= z < 65536.
Lemma exec1_range f ro i s : ret16 s -> post ret16 (exec1 f ro i s).
Proof.
  intros H. destruct i; cbn [exec1]; unfold op2.
  all: repeat match goal with
    | |- post _ (match ?x with _ => _ end) => destruct x
    | |- post _ (bind _ _) => apply post_bind; intros
    | |- post _ (Ret _) => constructor
    | |- post _ _ => constructor
    | |- ret16 (AState _ _ _) => intros ? E; cbn in E; injection E as <-; unfold u16; match goal with |- context [?x mod _] => pose proof (Z.mod_pos_bound x (2 ^ 16)) end; lia
    | |- ret16 _ => exact H
    end.
Qed.
Lemma exec_range a f ro c : forall s, ret16 s -> post ret16 (exec a f ro c s).
Proof.
  induction c as [|i r IH]; intros s H; cbn [exec]; [constructor; exact H |].
  destruct (supports a (needs i)); [| constructor]. eapply post_seq; [apply exec1_range, H | apply IH].
Qed.
Lemma asm_range a c ps : post (fun z => 0 <= z < 65536) (with_result (call_asm a c ps)).
Proof.
  unfold with_result, call_asm. destruct (layout 0 ps) as [f ro].
  apply (post_seq (fun o => forall z, o = Some z -> 0 <= z < 65536)).
  - eapply post_seq; [apply exec_range; intros z E; discriminate E |]. intros s H. constructor. exact H.
  - intros [z|] H; constructor. apply H. reflexivity.
Qed.

Section encode.
Variables (w : Z) (Hw : 32 <= w) (a : arch) (blk : nat).
Notation callT := (callWith w a (source a) (glob w a (source a)) blk).

Lemma s_ControlByteToSize n c : (1 <= n)%nat -> callT n "shared" "ControlByteToSize" [VInt U8 c] = Ret [VInt INT (ControlByteToSize c)].
Proof.
  intros H. more n. source (d_ControlByteToSize a) fn_ControlByteToSize. eval_source. globals. eval_source.
  rewrite iN_small; [reflexivity | exact Hw |]. pose proof (table_range (Z.to_nat c)). lia.
Qed.
Lemma s_ControlByteToSizeTwo n c : (1 <= n)%nat -> 0 <= c < 65536 ->
  callT n "shared" "ControlByteToSizeTwo" [VInt U16 c] = Ret [VInt INT (ControlByteToSizeTwo c)].
Proof.
  intros H Hc. more n. source (d_ControlByteToSizeTwo a) fn_ControlByteToSizeTwo. eval_source. globals. eval_source.
  assert (L : 0 <= Z.land c 255 < 256) by (change 255 with (Z.ones 8); rewrite Z.land_ones by lia; apply Z.mod_pos_bound; lia).
  assert (U : 0 <= Z.shiftr c 8 < 256) by (rewrite Z.shiftr_div_pow2 by lia; change (2 ^ 8) with 256; split; [apply Z.div_pos; lia | apply Z.div_lt_upper_bound; lia]).
  rewrite (proj2 (Z.leb_le 0 (Z.land c 255))), (proj2 (Z.ltb_lt (Z.land c 255) 256)), (proj2 (Z.leb_le 0 (Z.shiftr c 8))), (proj2 (Z.ltb_lt (Z.shiftr c 8) 256)) by lia.
  unfold ControlByteToSizeTwo. rewrite iN_small; [reflexivity | exact Hw |]. unfold u8. match goal with |- context [?x mod 2 ^ 8] => pose proof (Z.mod_pos_bound x (2 ^ 8)) end. lia.
Qed.

Lemma s_max n y : (1 <= n)%nat -> callT n "encode" "max" [VConst 1; VInt INT y] = Ret [VInt INT (max 1 y)].
Proof. intros H. more n. source (d_max a) fn_max. eval_source. unfold max. destruct (1 <? y); reflexivity. Qed.
Lemma s_LeadingZeros32 n x : (1 <= n)%nat -> callT n "bits" "LeadingZeros32" [VInt U32 x] = Ret [VInt INT (LeadingZeros32 x)].
Proof. intros H. more n. reflexivity. Qed.

Lemma s_encodeOne n x o : (2 <= n)%nat -> ref (bind (encodeOneN w x o) (fun z => Ret [VInt INT z])) (callT n "encode" "encodeOne" [VInt U32 x; VBytes o]).
Proof.
  intros H. more n. source (d_encodeOne a) fn_encodeOne. step. rewrite s_LeadingZeros32 by lia. both. rewrite s_max by lia. both.
  unfold encodeOneN. step. cbv zeta. set (size := max _ _). repeat both.
Qed.

Ltac callee ::=
  lazymatch goal with
  | |- ref _ (callWith _ _ _ _ _ _ _ "encodeOne" _) => apply s_encodeOne
  end; lia.
Lemma s_Put4uint32Scalar n inp out : (3 <= n)%nat ->
  ref (bind (Put4uint32ScalarN w inp out) (fun z => Ret [VInt U8 z])) (callT n "encode" "Put4uint32Scalar" [VWords inp; VBytes out]).
Proof.
  intros H. more n. source (d_Put4uint32Scalar a) fn_Put4uint32Scalar. unfold Put4uint32ScalarN. repeat both.
Qed.
Lemma s_Put4uint32DeltaScalar n inp out prev : (3 <= n)%nat ->
  ref (bind (Put4uint32DeltaScalarN w inp out prev) (fun z => Ret [VInt U8 z])) (callT n "encode" "Put4uint32DeltaScalar" [VWords inp; VBytes out; VInt U32 prev]).
Proof.
  intros H. more n. source (d_Put4uint32DeltaScalar a) fn_Put4uint32DeltaScalar. unfold Put4uint32DeltaScalarN. repeat both.
Qed.
Ltac callee ::=
  lazymatch goal with
  | |- ref _ (callWith _ _ _ _ _ _ _ "encodeOne" _) => apply s_encodeOne
  | |- ref _ (callWith _ _ _ _ _ _ _ "Put4uint32Scalar" _) => apply s_Put4uint32Scalar
  | |- ref _ (callWith _ _ _ _ _ _ _ "Put4uint32DeltaScalar" _) => apply s_Put4uint32DeltaScalar
  end; lia.
Lemma s_Put8uint32Scalar n inp out : (4 <= n)%nat ->
  ref (bind (Put8uint32ScalarN w inp out) (fun z => Ret [VInt U16 z])) (callT n "encode" "Put8uint32Scalar" [VWords inp; VBytes out]).
Proof.
  intros H. more n. source (d_Put8uint32Scalar a) fn_Put8uint32Scalar. unfold Put8uint32ScalarN. repeat (both; rewrite ?s_ControlByteToSize by lia).
Qed.
Lemma s_Put8uint32DeltaScalar n inp out prev : (4 <= n)%nat ->
  ref (bind (Put8uint32DeltaScalarN w inp out prev) (fun z => Ret [VInt U16 z])) (callT n "encode" "Put8uint32DeltaScalar" [VWords inp; VBytes out; VInt U32 prev]).
Proof.
  intros H. more n. source (d_Put8uint32DeltaScalar a) fn_Put8uint32DeltaScalar. unfold Put8uint32DeltaScalarN. repeat (both; rewrite ?s_ControlByteToSize by lia).
Qed.


Lemma s_PutUint32Scalar n inp out count : (6 <= n)%nat ->
  ref (bind (PutUint32ScalarN w inp out count) (fun z => Ret [VInt U8 z])) (callT n "encode" "PutUint32Scalar" [VWords inp; VBytes out; VInt INT count]).
Proof.
  intros H. more n. source (d_PutUint32Scalar a) fn_PutUint32Scalar. unfold PutUint32ScalarN. repeat both.
  destruct (4 <? count) eqn:Hc4; repeat both.
  all: match goal with |- context [("count", VInt INT ?c)] => assert (Hc : c <= 4) by lia; clear Hc4;
    apply (ref_loop _ _ (fun '(i, ctrl, shift, total) =>
      [("i", VInt INT i); ("total", VInt INT total); ("shift", VInt INT shift); ("ctrl", VInt U8 ctrl);
       ("in", VWords inp); ("out", VBytes out); ("count", VInt INT c)]) (fun '(i, _, shift, _) => 0 <= i <= 4 /\ shift = 2 * i)) end.
  all: try lia.
  all: intros [[[i ctrl] shift] total].
  1, 4: reflexivity.
  1, 3: intros K1 K2 [HP HP'] Hi HK; repeat both; rewrite (proj2 (Z.ltb_ge shift 0)) by lia; repeat both; apply HK; unfold iaddN; rewrite !iN_small; lia.
  all: intros ? ?; repeat both.
Qed.
Lemma s_PutUint32DeltaScalar n inp out count prev : (6 <= n)%nat ->
  ref (bind (PutUint32DeltaScalarN w inp out count prev) (fun z => Ret [VInt U8 z]))
    (callT n "encode" "PutUint32DeltaScalar" [VWords inp; VBytes out; VInt INT count; VInt U32 prev]).
Proof.
  intros H. more n. source (d_PutUint32DeltaScalar a) fn_PutUint32DeltaScalar. unfold PutUint32DeltaScalarN. repeat both.
  destruct (4 <? count) eqn:Hc4; repeat both.
  all: match goal with |- context [("count", VInt INT ?c)] => assert (Hc : c <= 4) by lia; clear Hc4;
    apply (ref_loop _ _ (fun '(i, ctrl, shift, total, prev) =>
      [("i", VInt INT i); ("total", VInt INT total); ("shift", VInt INT shift); ("ctrl", VInt U8 ctrl);
       ("in", VWords inp); ("out", VBytes out); ("count", VInt INT c); ("prev", VInt U32 prev)]) (fun '(i, _, shift, _, _) => 0 <= i <= 4 /\ shift = 2 * i)) end.
  all: try lia.
  all: intros [[[[i ctrl] shift] total] p].
  1, 4: reflexivity.
  1, 3: intros K1 K2 [HP HP'] Hi HK; repeat both; rewrite (proj2 (Z.ltb_ge shift 0)) by lia; repeat both; apply HK; unfold iaddN; rewrite !iN_small; lia.
  all: intros ? ?; repeat both.
Qed.
End encode.

(** The assembly routines and the functions chosen at start-up. *)
Section amd64.
Variables (w : Z) (Hw : 32 <= w) (b c : bool) (blk : nat).
Notation a := (AMD64 b c).
Notation callT := (callWith w a (source a) (glob w a (source a)) blk).

Lemma r_Put8uint32FastAsm : option_map r_code (routineNamed (p_asm (source a)) "Put8uint32FastAsm") = Some Put8uint32FastAsm_code.
Proof. vm_compute. reflexivity. Qed.
Lemma r_Put8uint32DeltaFastAsm : option_map r_code (routineNamed (p_asm (source a)) "Put8uint32DeltaFastAsm") = Some Put8uint32DeltaFastAsm_code.
Proof. vm_compute. reflexivity. Qed.

Lemma s_Put8uint32FastAsm n inp out shuffle lenTable k k2 k3 : (1 <= n)%nat ->
  ref (bind (Put8uint32FastAsm a inp out shuffle lenTable) (fun z => Ret [VInt U16 z]))
    (callT n "encode" "Put8uint32FastAsm" [VWords inp; VBytes out; VArr2 k k2 shuffle; VArr k3 lenTable]).
Proof.
  intros H. more n. assembler (d_Put8uint32FastAsm b c) r_Put8uint32FastAsm. unfold Put8uint32FastAsm, with_result.
  apply ref_assoc, ref_same. intros [z|]; apply ref_refl.
Qed.
Lemma s_Put8uint32DeltaFastAsm n inp out prev shuffle lenTable k k2 k3 : (1 <= n)%nat ->
  ref (bind (Put8uint32DeltaFastAsm a inp out prev shuffle lenTable) (fun z => Ret [VInt U16 z]))
    (callT n "encode" "Put8uint32DeltaFastAsm" [VWords inp; VBytes out; VInt U32 prev; VArr2 k k2 shuffle; VArr k3 lenTable]).
Proof.
  intros H. more n. assembler (d_Put8uint32DeltaFastAsm b c) r_Put8uint32DeltaFastAsm. unfold Put8uint32DeltaFastAsm, with_result.
  apply ref_assoc, ref_same. intros [z|]; apply ref_refl.
Qed.
Ltac callee ::=
  lazymatch goal with
  | |- ref _ (callWith _ _ _ _ _ _ _ "Put8uint32FastAsm" _) => apply s_Put8uint32FastAsm
  | |- ref _ (callWith _ _ _ _ _ _ _ "Put8uint32DeltaFastAsm" _) => apply s_Put8uint32DeltaFastAsm
  end; lia.
Lemma s_Put8uint32Fast_amd64 n inp out : (2 <= n)%nat ->
  ref (bind (Put8uint32Fast a inp out) (fun z => Ret [VInt U16 z])) (callT n "encode" "Put8uint32Fast" [VWords inp; VBytes out]).
Proof.
  intros H. more n. source (d_Put8uint32Fast b c) fn_Put8uint32Fast. unfold Put8uint32Fast. repeat both.
Qed.
Lemma s_Put8uint32DeltaFast_amd64 n inp out prev : (2 <= n)%nat ->
  ref (bind (Put8uint32DeltaFast a inp out prev) (fun z => Ret [VInt U16 z])) (callT n "encode" "Put8uint32DeltaFast" [VWords inp; VBytes out; VInt U32 prev]).
Proof.
  intros H. more n. source (d_Put8uint32DeltaFast b c) fn_Put8uint32DeltaFast. unfold Put8uint32DeltaFast. repeat both.
Qed.
End amd64.

Section chosen.
Variables (w : Z) (Hw : 32 <= w) (a : arch) (blk : nat).
Notation callT := (callWith w a (source a) (glob w a (source a)) blk).
Definition modeZ (p : PerformanceMode) : Z := match p with Fast => 1 | Normal => 0 end.
Lemma s_encGetMode n : (1 <= n)%nat -> ref (Ret [VInt INT (modeZ (encGetMode a))]) (callT n "encode" "GetMode" []).
Proof.
  intros H. more n. destruct a as [b c|].
  - source (d_encGetMode b c) fn_encGetMode. destruct b, c; repeat both.
  - source d_encGetMode_base fn_encGetMode_base. repeat both.
Qed.
Lemma s_Put8uint32Fast n inp out : (2 <= n)%nat ->
  ref (bind (Put8uint32Fast a inp out) (fun z => Ret [VInt U16 z])) (callT n "encode" "Put8uint32Fast" [VWords inp; VBytes out]).
Proof.
  intros H. destruct a as [b c|]; [apply s_Put8uint32Fast_amd64, H |].
  more n. source d_Put8uint32Fast_base fn_Put8uint32Fast_base. unfold Put8uint32Fast. repeat both.
Qed.
Lemma s_Put8uint32DeltaFast n inp out prev : (2 <= n)%nat ->
  ref (bind (Put8uint32DeltaFast a inp out prev) (fun z => Ret [VInt U16 z])) (callT n "encode" "Put8uint32DeltaFast" [VWords inp; VBytes out; VInt U32 prev]).
Proof.
  intros H. destruct a as [b c|]; [apply s_Put8uint32DeltaFast_amd64, H |].
  more n. source d_Put8uint32DeltaFast_base fn_Put8uint32DeltaFast_base. unfold Put8uint32DeltaFast. repeat both.
Qed.
Ltac callee ::=
  lazymatch goal with
  | |- ref _ (callWith _ _ _ _ _ _ _ "Put8uint32Fast" _) => apply s_Put8uint32Fast
  | |- ref _ (callWith _ _ _ _ _ _ _ "Put8uint32DeltaFast" _) => apply s_Put8uint32DeltaFast
  | |- ref _ (callWith _ _ _ _ _ _ _ "Put8uint32Scalar" _) => apply s_Put8uint32Scalar
  | |- ref _ (callWith _ _ _ _ _ _ _ "Put8uint32DeltaScalar" _) => apply s_Put8uint32DeltaScalar
  end; lia.
Lemma s_Put8uint32 n inp out : (5 <= n)%nat ->
  ref (bind (Put8uint32N w a inp out) (fun z => Ret [VInt U16 z])) (callT n "encode" "Put8uint32" [VWords inp; VBytes out]).
Proof.
  intros H. more n. source (d_Put8uint32 a) fn_Put8uint32. unfold Put8uint32N. step. destruct (encGetMode a); repeat both.
Qed.
Lemma s_Put8uint32Delta n inp out prev : (5 <= n)%nat ->
  ref (bind (Put8uint32DeltaN w a inp out prev) (fun z => Ret [VInt U16 z])) (callT n "encode" "Put8uint32Delta" [VWords inp; VBytes out; VInt U32 prev]).
Proof.
  intros H. more n. source (d_Put8uint32Delta a) fn_Put8uint32Delta. unfold Put8uint32DeltaN. step. destruct (encGetMode a); repeat both.
Qed.
End chosen.
