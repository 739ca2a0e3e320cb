(** * CPU features: C26 *)
From stdpp Require Import prelude gmap list.
From Coq Require Import ZArith Lia.
From Verif Require Import Spec GoSem Shared Tables Asm AsmProgs Encode Decode Writer Reader Api Witness.
Local Open Scope Z_scope.

(** No run of [p], whatever the memory contains, reaches an instruction the CPU
    does not have. *)
Definition never_illegal {A} (p : prog A) : Prop := forall m, result (run p m) <> Illegal.

(** ** Proof: no leaf [BadInstr] in the program tree *)
Fixpoint legal {A} (p : prog A) : Prop :=
  match p with
  | Ret _ | GoPanic | Fault | Diverge => True
  | BadInstr => False
  | ReadB _ _ k | ReadW _ _ k => forall v, legal (k v)
  | WriteB _ _ _ k | WriteW _ _ _ k | AllocB _ _ k => legal k
  end.
Lemma legal_never {A} (p : prog A) : legal p -> never_illegal p.
Proof.
  unfold never_illegal, result. induction p as [a| | | | |b i k IH|b i v k IH|b i k IH|b i v k IH|b n k IH]; intros H m; cbn in *; try done.
  - destruct (hget (mb m) b i); [|done]. specialize (IH z (H z) m). by destruct (run (k z) m) as [[? ?] ?].
  - destruct (hput (mb m) b i v) as [h|]; [|done]. specialize (IH H (Mem h (mw m))). by destruct (run k _) as [[? ?] ?].
  - destruct (hget (mw m) b i); [|done]. specialize (IH z (H z) m). by destruct (run (k z) m) as [[? ?] ?].
  - destruct (hput (mw m) b i v) as [h|]; [|done]. specialize (IH H (Mem (mb m) h)). by destruct (run k _) as [[? ?] ?].
  - destruct (mb m !! b); [done|]. specialize (IH H (Mem (<[b:=replicate (Z.to_nat n) 0]> (mb m)) (mw m))). by destruct (run k _) as [[? ?] ?].
Qed.
Lemma legal_bind {A B} (p : prog A) (f : A -> prog B) : legal p -> (forall x, legal (f x)) -> legal (bind p f).
Proof. induction p; cbn; auto. Qed.
Lemma legal_while {S} fuel cond (body : S -> prog S) s : (forall s, legal (body s)) -> legal (while fuel cond body s).
Proof.
  intros Hb. revert s. induction fuel as [|n IH]; intros s; [done|]. cbn [while]. destruct (cond s); [|done]. apply legal_bind; auto.
Qed.
Lemma legal_slice_from s i : legal (slice_from s i).
Proof. unfold slice_from. by destruct (_ && _). Qed.
Lemma legal_slice_range s i j : legal (slice_range s i j).
Proof. unfold slice_range. by destruct (_ && _). Qed.
Lemma legal_check s i : legal (check_idx s i).
Proof. unfold check_idx. by destruct (_ && _). Qed.
Lemma legal_getB s i : legal (getB s i).
Proof. apply legal_bind; [apply legal_check|done]. Qed.
Lemma legal_setB s i v : legal (setB s i v).
Proof. apply legal_bind; [apply legal_check|done]. Qed.
Lemma legal_getW s i : legal (getW s i).
Proof. apply legal_bind; [apply legal_check|done]. Qed.
Lemma legal_setW s i v : legal (setW s i v).
Proof. apply legal_bind; [apply legal_check|done]. Qed.
Lemma legal_makeB b n : legal (makeB b n).
Proof. unfold makeB. by destruct (n <? 0). Qed.

(** ** Assembly *)
Lemma legal_readBs n b i : legal (readBs n b i).
Proof. revert i. induction n as [|n IH]; intros i; [done|]. cbn. intros v. apply legal_bind; [apply IH|done]. Qed.
Lemma legal_readWs n b i : legal (readWs n b i).
Proof. revert i. induction n as [|n IH]; intros i; [done|]. cbn. intros v. apply legal_bind; [apply IH|done]. Qed.
Lemma legal_writeBs b i vs : legal (writeBs b i vs).
Proof. revert i. induction vs as [|v vs IH]; intros i; [done|]. cbn. apply IH. Qed.
Lemma legal_writeWs b i vs : legal (writeWs b i vs).
Proof. revert i. induction vs as [|v vs IH]; intros i; [done|]. cbn. apply IH. Qed.
Lemma legal_load128 p d : legal (load128 p d).
Proof.
  destruct p; cbn [load128]; [done|apply legal_readBs| | |done].
  - destruct (_ =? _); [|done]. apply legal_bind; [apply legal_readWs|done].
  - by destruct (_ && _).
Qed.
Lemma legal_store128 p d v : legal (store128 p d v).
Proof.
  unfold store128. destruct (length v =? 16)%nat; [|done]. destruct p; [done|apply legal_writeBs| |done|done].
  destruct (_ =? _); [apply legal_writeWs|done].
Qed.
Lemma legal_load8 p : legal (load8 p).
Proof. destruct p; cbn [load8]; try done. by destruct (_ && _). Qed.
Lemma legal_exec1 f ro i s : legal (exec1 f ro i s).
Proof.
  destruct i; cbn [exec1]; try done; repeat case_match; try done;
    (apply legal_bind; [first [apply legal_load8|apply legal_load128|apply legal_store128]|done]).
Qed.
Lemma legal_exec a f ro c s : Forall (fun i => supports a (needs i) = true) c -> legal (exec a f ro c s).
Proof.
  intros H. revert s. induction H as [|i c Hi _ IH]; intros s; [done|]. cbn [exec]. rewrite Hi. apply legal_bind; [apply legal_exec1|apply IH].
Qed.
Lemma legal_call a c ps : Forall (fun i => supports a (needs i) = true) c -> legal (call_asm a c ps).
Proof. intros H. unfold call_asm. destruct (layout 0 ps) as [f ro]. apply legal_bind; [by apply legal_exec|done]. Qed.

(** The instructions of the encoders need AVX2, those of the decoders AVX only. *)
Lemma put_code_supported : Forall (fun i => supports (AMD64 true true) (needs i) = true) Put8uint32FastAsm_code /\
  Forall (fun i => supports (AMD64 true true) (needs i) = true) Put8uint32DeltaFastAsm_code.
Proof. split; repeat constructor. Qed.
Lemma get_code_supported avx2 : Forall (fun i => supports (AMD64 true avx2) (needs i) = true) Get8uint32FastAsm_code /\
  Forall (fun i => supports (AMD64 true avx2) (needs i) = true) Get8uint32DeltaFastAsm_code.
Proof. split; repeat constructor. Qed.
Lemma legal_put i o s l : legal (Put8uint32FastAsm (AMD64 true true) i o s l).
Proof. apply legal_bind; [apply legal_call, put_code_supported|by intros []]. Qed.
Lemma legal_put_delta i o p s l : legal (Put8uint32DeltaFastAsm (AMD64 true true) i o p s l).
Proof. apply legal_bind; [apply legal_call, put_code_supported|by intros []]. Qed.
Lemma legal_get avx2 i o c s l : legal (Get8uint32FastAsm (AMD64 true avx2) i o c s l).
Proof. apply legal_bind; [apply legal_call, get_code_supported|done]. Qed.
Lemma legal_get_delta avx2 i o c p s l : legal (Get8uint32DeltaFastAsm (AMD64 true avx2) i o c p s l).
Proof. apply legal_bind; [apply legal_call, get_code_supported|done]. Qed.

(** ** Go code *)
Create HintDb legal.
#[local] Hint Resolve legal_slice_from legal_slice_range legal_check legal_getB legal_setB legal_getW legal_setW legal_makeB
  legal_put legal_put_delta legal_get legal_get_delta : legal.
Ltac lstep :=
  match goal with
  | |- forall _, _ => intro
  | |- legal (bind _ _) => apply legal_bind
  | |- legal (while _ _ _ _) => apply legal_while
  | |- legal (Ret _) => exact I
  | |- legal GoPanic => exact I
  | |- legal Diverge => exact I
  | |- legal (let '(_, _) := ?x in _) => destruct x
  | |- legal (match ?x with _ => _ end) => destruct x
  | |- legal (if ?x then _ else _) => destruct x
  | |- legal _ => solve [auto with legal nocore]
  end.
Ltac lg := cbv zeta; repeat (lstep; cbv beta zeta).
Lemma legal_encodeOne x o : legal (encodeOne x o).
Proof. unfold encodeOne. lg. Qed.
#[local] Hint Resolve legal_encodeOne : legal.
Lemma legal_PutUint32Scalar i o n : legal (PutUint32Scalar i o n).
Proof. unfold PutUint32Scalar. lg. Qed.
Lemma legal_PutUint32DeltaScalar i o n p : legal (PutUint32DeltaScalar i o n p).
Proof. unfold PutUint32DeltaScalar. lg. Qed.
Lemma legal_Put4uint32Scalar i o : legal (Put4uint32Scalar i o).
Proof. unfold Put4uint32Scalar. lg. Qed.
Lemma legal_Put4uint32DeltaScalar i o p : legal (Put4uint32DeltaScalar i o p).
Proof. unfold Put4uint32DeltaScalar. lg. Qed.
#[local] Hint Resolve legal_PutUint32Scalar legal_PutUint32DeltaScalar legal_Put4uint32Scalar legal_Put4uint32DeltaScalar : legal.
Lemma legal_Put8uint32Scalar i o : legal (Put8uint32Scalar i o).
Proof. unfold Put8uint32Scalar. lg. Qed.
Lemma legal_Put8uint32DeltaScalar i o p : legal (Put8uint32DeltaScalar i o p).
Proof. unfold Put8uint32DeltaScalar. lg. Qed.
Lemma legal_decodeOne s n : legal (decodeOne s n).
Proof. unfold decodeOne. lg. Qed.
#[local] Hint Resolve legal_Put8uint32Scalar legal_Put8uint32DeltaScalar legal_decodeOne : legal.
Lemma legal_Get4uint32Scalar i o c : legal (Get4uint32Scalar i o c).
Proof. unfold Get4uint32Scalar. lg. Qed.
Lemma legal_Get4uint32DeltaScalar i o c p : legal (Get4uint32DeltaScalar i o c p).
Proof. unfold Get4uint32DeltaScalar. lg. Qed.
Lemma legal_GetUint32Scalar i o c n : legal (GetUint32Scalar i o c n).
Proof. unfold GetUint32Scalar. lg. Qed.
Lemma legal_GetUint32DeltaScalar i o c n p : legal (GetUint32DeltaScalar i o c n p).
Proof. unfold GetUint32DeltaScalar. lg. Qed.
#[local] Hint Resolve legal_Get4uint32Scalar legal_Get4uint32DeltaScalar legal_GetUint32Scalar legal_GetUint32DeltaScalar : legal.
Lemma legal_Get8uint32Scalar i o c : legal (Get8uint32Scalar i o c).
Proof. unfold Get8uint32Scalar. lg. Qed.
Lemma legal_Get8uint32DeltaScalar i o c p : legal (Get8uint32DeltaScalar i o c p).
Proof. unfold Get8uint32DeltaScalar. lg. Qed.
#[local] Hint Resolve legal_Get8uint32Scalar legal_Get8uint32DeltaScalar : legal.
Lemma legal_WriteAllScalar b i : legal (WriteAllScalar b i).
Proof. unfold WriteAllScalar, slice_to. lg. Qed.
Lemma legal_WriteAllDeltaScalar b i p : legal (WriteAllDeltaScalar b i p).
Proof. unfold WriteAllDeltaScalar, slice_to. lg. Qed.
Lemma legal_WriteAllFast b i : legal (WriteAllFast (AMD64 true true) b i).
Proof. unfold WriteAllFast, slice_to. lg. Qed.
Lemma legal_WriteAllDeltaFast b i p : legal (WriteAllDeltaFast (AMD64 true true) b i p).
Proof. unfold WriteAllDeltaFast, slice_to. lg. Qed.
Lemma legal_ReadAllScalar n s o : legal (ReadAllScalar n s o).
Proof. unfold ReadAllScalar. lg. Qed.
Lemma legal_ReadAllDeltaScalar n s o p : legal (ReadAllDeltaScalar n s o p).
Proof. unfold ReadAllDeltaScalar. lg. Qed.
Lemma legal_ReadAllFast avx2 n s o : legal (ReadAllFast (AMD64 true avx2) n s o).
Proof. unfold ReadAllFast. lg. Qed.
Lemma legal_ReadAllDeltaFast avx2 n s o p : legal (ReadAllDeltaFast (AMD64 true avx2) n s o p).
Proof. unfold ReadAllDeltaFast. lg. Qed.

(** ** C26: whatever the CPU, the arguments and the memory *)
Theorem C26_writers : forall a B inp prev, never_illegal (WriteAll a B inp) /\ never_illegal (WriteAllDelta a B inp prev).
Proof.
  intros a B inp prev. split; apply legal_never.
  - unfold WriteAll. destruct a as [[] []|]; [apply legal_WriteAllFast|apply legal_WriteAllScalar..].
  - unfold WriteAllDelta. destruct a as [[] []|]; [apply legal_WriteAllDeltaFast|apply legal_WriteAllDeltaScalar..].
Qed.
Theorem C26_readers : forall a n st out prev, never_illegal (ReadAll a n st out) /\ never_illegal (ReadAllDelta a n st out prev).
Proof.
  intros a n st out prev. split; apply legal_never.
  - unfold ReadAll. destruct a as [[] []|]; [apply legal_ReadAllFast|apply legal_ReadAllFast|apply legal_ReadAllScalar..].
  - unfold ReadAllDelta. destruct a as [[] []|]; [apply legal_ReadAllDeltaFast|apply legal_ReadAllDeltaFast|apply legal_ReadAllDeltaScalar..].
Qed.
Theorem C26_encoders : forall a inp out prev, never_illegal (Put8uint32 a inp out) /\ never_illegal (Put8uint32Delta a inp out prev).
Proof.
  intros a inp out prev. split; apply legal_never.
  - unfold Put8uint32. destruct a as [[] []|]; [apply legal_put|apply legal_Put8uint32Scalar..].
  - unfold Put8uint32Delta. destruct a as [[] []|]; [apply legal_put_delta|apply legal_Put8uint32DeltaScalar..].
Qed.
Theorem C26_decoders : forall a inp out c prev, never_illegal (Get8uint32 a inp out c) /\ never_illegal (Get8uint32Delta a inp out c prev).
Proof.
  intros a inp out c prev. split; apply legal_never.
  - unfold Get8uint32. destruct a as [[] []|]; [apply legal_get|apply legal_get|apply legal_Get8uint32Scalar..].
  - unfold Get8uint32Delta. destruct a as [[] []|]; [apply legal_get_delta|apply legal_get_delta|apply legal_Get8uint32DeltaScalar..].
Qed.
(** The statement is not void: the Fast functions, called directly on a CPU that
    lacks the features, do reach such instructions; the encoders already without AVX2. *)
Theorem C26_direct_calls :
  result (run (Put8uint32Fast (AMD64 true false) ex_in ex_buf) ex_mem) = Illegal /\
  result (run (Put8uint32DeltaFast (AMD64 true false) ex_in ex_buf 0) ex_mem) = Illegal /\
  result (run (Get8uint32Fast (AMD64 false false) ex_st ex_out 0) ex_mem) = Illegal /\
  result (run (Get8uint32DeltaFast (AMD64 false false) ex_st ex_out 0 0) ex_mem) = Illegal /\
  result (run (WriteAllFast (AMD64 true false) 9 ex_in) ex_mem) = Illegal /\
  result (run (WriteAll (AMD64 true false) 9 ex_in) ex_mem) = Ok (Slice 9 0 83 158).
Proof. by vm_compute. Qed.
(** Which implementation the dispatchers run, for completeness: SIMD encoding needs
    AVX and AVX2, SIMD decoding AVX. *)
Theorem C26_modes : forall a,
  (encGetMode a = Fast <-> a = AMD64 true true) /\ (decGetMode a = Fast <-> exists avx2, a = AMD64 true avx2).
Proof.
  intros [[] []|]; cbn; (split; split; [try done; try congruence|try done; try congruence|intros H; try discriminate; eauto|intros [? H]; try discriminate; try done]).
Qed.
(** CPUs without the features: the calls end with a result. *)
Example C26_case :
  result (run (WriteAll (AMD64 false false) 9 ex_in) ex_mem) = Ok (Slice 9 0 83 158) /\ result (run (WriteAllDelta (AMD64 true false) 9 ex_in 0) ex_mem) <> Illegal /\
  result (run (ReadAll (AMD64 false true) 0 ex_st ex_out) ex_mem) <> Illegal /\ encGetMode (AMD64 true false) <> Fast /\ decGetMode (AMD64 true false) = Fast.
Proof. vm_compute. repeat split; discriminate. Qed.
