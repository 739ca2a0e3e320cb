(** * The loops of the model never run out of fuel

    [total P p]: whatever is read from memory, [p] does not run out of fuel, and a returned
    value satisfies [P].  This is stronger than termination on a given memory. *)
From Coq Require Import ZArith List Bool Lia.
From Verif Require Import GoSem Tables Shared Asm Encode Decode Writer Reader Util Wp.
Import ListNotations.
Local Open Scope Z_scope.

Inductive total {A} (P : A -> Prop) : prog A -> Prop :=
| t_ret a : P a -> total P (Ret a)
| t_panic : total P GoPanic
| t_fault : total P Fault
| t_bad : total P BadInstr
| t_readB b i k : (forall v, total P (k v)) -> total P (ReadB b i k)
| t_writeB b i v k : total P k -> total P (WriteB b i v k)
| t_readW b i k : (forall v, total P (k v)) -> total P (ReadW b i k)
| t_writeW b i v k : total P k -> total P (WriteW b i v k)
| t_alloc b n k : total P k -> total P (AllocB b n k).

Lemma total_run {A} (P : A -> Prop) p : total P p -> forall m, result (run p m) <> Diverged.
Proof.
  unfold result. induction 1; intros m; simpl; try discriminate.
  - destruct (hget (mb m) b i) as [v|]; [|discriminate]. specialize (H0 v m). destruct (run (k v) m) as [[r m'] t]. exact H0.
  - destruct (hput (mb m) b i v) as [h|]; [|discriminate]. specialize (IHtotal (Mem h (mw m))). destruct (run k _) as [[r m'] t]. exact IHtotal.
  - destruct (hget (mw m) b i) as [v|]; [|discriminate]. specialize (H0 v m). destruct (run (k v) m) as [[r m'] t]. exact H0.
  - destruct (hput (mw m) b i v) as [h|]; [|discriminate]. specialize (IHtotal (Mem (mb m) h)). destruct (run k _) as [[r m'] t]. exact IHtotal.
  - destruct (stdpp.base.lookup b (mb m)); [discriminate|].
    match goal with |- context [run k ?M] => specialize (IHtotal M) end. destruct (run k _) as [[r m'] t]. exact IHtotal.
Qed.
Lemma total_bind {A B} (Q : A -> Prop) (P : B -> Prop) p f : total Q p -> (forall a, Q a -> total P (f a)) -> total P (bind p f).
Proof. induction 1; simpl; intros E; try constructor; auto. Qed.
Lemma total_mono {A} (P Q : A -> Prop) p : (forall a, P a -> Q a) -> total P p -> total Q p.
Proof. intros E. induction 1; constructor; auto. Qed.
Definition tt1 {A} (_ : A) : Prop := True.
Lemma total_then {A B} (P : B -> Prop) (p : prog A) f : total tt1 p -> (forall a, total P (f a)) -> total P (bind p f).
Proof. intros H E. eapply total_bind; [exact H | intros a _; apply E]. Qed.

(** Loops: [mu] decreases. *)
Lemma total_while {S : Type} (I : S -> Prop) (mu : S -> nat) cond body :
  (forall s, I s -> cond s = true -> total (fun s' => I s' /\ (mu s' < mu s)%nat) (body s)) ->
  forall f s, I s -> (mu s < f)%nat -> total I (while f cond body s).
Proof.
  intros H f. induction f as [|f IH]; intros s Is L; [lia|]. simpl. destruct (cond s) eqn:E; [|constructor; exact Is].
  eapply total_bind; [apply H; assumption|]. intros s' [Is' L']. apply IH; [exact Is'|lia].
Qed.

(** Primitives, with what their success tells. *)
Section prims.
Context {B : Type} (P : B -> Prop).
Lemma t_slice_from s lo (f : slice -> prog B) :
  (0 <= lo <= s_len s -> total P (f (Slice (s_blk s) (s_off s + lo) (s_len s - lo) (s_cap s - lo)))) -> total P (bind (slice_from s lo) f).
Proof. intros H. unfold slice_from. destruct (0 <=? lo) eqn:E1, (lo <=? s_len s) eqn:E2; simpl; try constructor. apply H. lia. Qed.
Lemma t_slice_range s lo hi (f : slice -> prog B) :
  (0 <= lo <= hi /\ hi <= s_cap s -> total P (f (Slice (s_blk s) (s_off s + lo) (hi - lo) (s_cap s - lo)))) -> total P (bind (slice_range s lo hi) f).
Proof. intros H. unfold slice_range. destruct (0 <=? lo) eqn:E1, (lo <=? hi) eqn:E2, (hi <=? s_cap s) eqn:E3; simpl; try constructor. apply H. lia. Qed.
Lemma t_check_idx s i (f : unit -> prog B) : (0 <= i < s_len s -> total P (f tt)) -> total P (bind (check_idx s i) f).
Proof. intros H. unfold check_idx. destruct (0 <=? i) eqn:E1, (i <? s_len s) eqn:E2; simpl; try constructor. apply H. lia. Qed.
Lemma t_getB s i (f : Z -> prog B) : (forall v, 0 <= i < s_len s -> total P (f v)) -> total P (bind (getB s i) f).
Proof. intros H. unfold getB, check_idx. destruct (0 <=? i) eqn:E1, (i <? s_len s) eqn:E2; simpl; try constructor. intros v. apply H. lia. Qed.
Lemma t_getW s i (f : Z -> prog B) : (forall v, 0 <= i < s_len s -> total P (f v)) -> total P (bind (getW s i) f).
Proof. intros H. unfold getW, check_idx. destruct (0 <=? i) eqn:E1, (i <? s_len s) eqn:E2; simpl; try constructor. intros v. apply H. lia. Qed.
Lemma t_setB s i v (f : unit -> prog B) : (0 <= i < s_len s -> total P (f tt)) -> total P (bind (setB s i v) f).
Proof. intros H. unfold setB, check_idx. destruct (0 <=? i) eqn:E1, (i <? s_len s) eqn:E2; simpl; try constructor. apply H. lia. Qed.
Lemma t_setW s i v (f : unit -> prog B) : (0 <= i < s_len s -> total P (f tt)) -> total P (bind (setW s i v) f).
Proof. intros H. unfold setW, check_idx. destruct (0 <=? i) eqn:E1, (i <? s_len s) eqn:E2; simpl; try constructor. apply H. lia. Qed.
Lemma t_makeB b n (f : slice -> prog B) : (0 <= n -> total P (f (Slice b 0 n n))) -> total P (bind (makeB b n) f).
Proof. intros H. unfold makeB. destruct (n <? 0) eqn:E; simpl; constructor. apply H. lia. Qed.
End prims.
Lemma total_setW s i v : total tt1 (setW s i v).
Proof. unfold setW, check_idx. destruct (_ && _); simpl; repeat constructor. Qed.
Lemma total_setB s i v : total tt1 (setB s i v).
Proof. unfold setB, check_idx. destruct (_ && _); simpl; repeat constructor. Qed.
Lemma total_slice_range s lo hi : total tt1 (slice_range s lo hi).
Proof. unfold slice_range. destruct (_ && _); repeat constructor. Qed.

Ltac known := fail.
Ltac tot1 :=
  lazymatch goal with
  | |- total _ (bind (if _ then _ else _) _) => apply total_then; [| intros ?]
  | |- total _ (bind (slice_from _ _) _) => apply t_slice_from; intros ?
  | |- total _ (bind (slice_range _ _ _) _) => apply t_slice_range; intros ?
  | |- total _ (bind (check_idx _ _) _) => apply t_check_idx; intros ?
  | |- total _ (bind (getB _ _) _) => apply t_getB; intros ? ?
  | |- total _ (bind (getW _ _) _) => apply t_getW; intros ? ?
  | |- total _ (bind (setB _ _ _) _) => apply t_setB; intros ?
  | |- total _ (bind (setW _ _ _) _) => apply t_setW; intros ?
  | |- total _ (bind (makeB _ _) _) => apply t_makeB; intros ?
  | |- total _ (bind (Ret ?x) ?f) => change (total _ (f x)); cbv beta
  | |- total _ (bind _ _) => apply total_then; [solve [known] | intros ?]
  | |- total tt1 (setW _ _ _) => apply total_setW
  | |- total tt1 (setB _ _ _) => apply total_setB
  | |- total tt1 (slice_range _ _ _) => apply total_slice_range
  | |- total tt1 (Ret _) => constructor; exact I
  | |- total _ (Ret _) => constructor
  | |- total _ GoPanic => constructor
  | |- total _ Fault => constructor
  | |- total _ (if ?c then _ else _) => destruct c eqn:?
  | |- total _ (match ?x with (_, _) => _ end) => destruct x
  | |- total tt1 _ => solve [known]
  end; cbv zeta.
Ltac tot := cbv zeta; repeat tot1.

(** ** Assembly *)
Lemma total_readBs n : forall b i, total tt1 (readBs n b i).
Proof. induction n; intros; simpl; constructor; try exact I. intros v. apply total_then; [apply IHn | intros; constructor; exact I]. Qed.
Lemma total_readWs n : forall b i, total tt1 (readWs n b i).
Proof. induction n; intros; simpl; constructor; try exact I. intros v. apply total_then; [apply IHn | intros; constructor; exact I]. Qed.
Lemma total_writeBs l : forall b i, total tt1 (writeBs b i l).
Proof. induction l; intros; simpl; constructor; try exact I. apply IHl. Qed.
Lemma total_writeWs l : forall b i, total tt1 (writeWs b i l).
Proof. induction l; intros; simpl; constructor; try exact I. apply IHl. Qed.
Lemma total_load128 p d : total tt1 (load128 p d).
Proof.
  destruct p; cbn [load128]; try solve [apply t_fault].
  - apply total_readBs.
  - destruct (_ =? 0); [| apply t_fault]. apply total_then; [apply total_readWs | intros; apply t_ret; exact I].
  - destruct (_ && _); [apply t_ret; exact I | apply t_fault].
Qed.
Lemma total_store128 p d v : total tt1 (store128 p d v).
Proof.
  unfold store128. destruct (Nat.eqb _ _); [| apply t_fault]. destruct p; try solve [apply t_fault]; [apply total_writeBs |].
  destruct (_ =? 0); [apply total_writeWs | apply t_fault].
Qed.
Lemma total_load8 p : total tt1 (load8 p).
Proof. destruct p; cbn [load8]; try solve [apply t_fault]; [apply t_readB; intros; apply t_ret; exact I | destruct (_ && _); [apply t_ret; exact I | apply t_fault]]. Qed.
Lemma total_exec1 f ro i s : total tt1 (exec1 f ro i s).
Proof.
  destruct i; cbn [exec1]; unfold op2.
  all: repeat lazymatch goal with
    | |- total _ (Ret _) => apply t_ret; exact I
    | |- total _ Fault => apply t_fault
    | |- total _ BadInstr => apply t_bad
    | |- total _ (bind (load128 _ _) _) => apply total_then; [apply total_load128 | intros ?]
    | |- total _ (bind (store128 _ _ _) _) => apply total_then; [apply total_store128 | intros ?]
    | |- total _ (bind (load8 _) _) => apply total_then; [apply total_load8 | intros ?]
    | |- total _ (bind _ _) => apply total_then; [| intros ?]
    | |- total _ (match ?x with _ => _ end) => destruct x
    end.
Qed.
Lemma total_call_asm a c ps : total tt1 (call_asm a c ps).
Proof.
  unfold call_asm. destruct (layout 0 ps) as [f ro]. apply total_then; [| intros; apply t_ret; exact I].
  generalize astate0. induction c as [|i r IH]; intros s; cbn [exec]; [apply t_ret; exact I |].
  destruct (supports a (needs i)); [| apply t_bad]. apply total_then; [apply total_exec1 | apply IH].
Qed.

(** ** Encoding *)
Lemma total_encodeOne x o : total tt1 (encodeOne x o).
Proof. unfold encodeOne. tot. Qed.
Ltac known ::= apply total_encodeOne.
Lemma iadd1 a b : 0 <= a <= 2 ^ 62 -> 0 <= b <= 2 ^ 61 -> iadd a b = a + b.
Proof. intros. unfold iadd. apply i64_small. lia. Qed.
Lemma total_PutUint32Scalar i o c : total tt1 (PutUint32Scalar i o c).
Proof.
  unfold PutUint32Scalar. destruct (c =? 0); [apply t_ret; exact I|]. set (c' := if 4 <? c then 4 else c).
  assert (c' <= 4) by (subst c'; destruct (4 <? c) eqn:?; lia).
  eapply total_bind.
  - apply total_while with (I := fun '(i, _, _, _) => 0 <= i) (mu := fun '(i, _, _, _) => Z.to_nat (4 - i)); [|lia|lia].
    intros [[[j ct] sh] t] Hj L. tot. rewrite iadd1 by lia. lia.
  - intros [[[j ct] sh] t] _. tot.
Qed.
Lemma total_PutUint32DeltaScalar i o c p : total tt1 (PutUint32DeltaScalar i o c p).
Proof.
  unfold PutUint32DeltaScalar. destruct (c =? 0); [apply t_ret; exact I|]. set (c' := if 4 <? c then 4 else c).
  assert (c' <= 4) by (subst c'; destruct (4 <? c) eqn:?; lia).
  eapply total_bind.
  - apply total_while with (I := fun '(i, _, _, _, _) => 0 <= i) (mu := fun '(i, _, _, _, _) => Z.to_nat (4 - i)); [|lia|lia].
    intros [[[[j ct] sh] t] q] Hj L. tot. rewrite iadd1 by lia. lia.
  - intros [[[[j ct] sh] t] q] _. tot.
Qed.
Lemma total_Put4uint32Scalar i o : total tt1 (Put4uint32Scalar i o).
Proof. unfold Put4uint32Scalar. tot. Qed.
Lemma total_Put4uint32DeltaScalar i o p : total tt1 (Put4uint32DeltaScalar i o p).
Proof. unfold Put4uint32DeltaScalar. tot. Qed.
Lemma total_asm a c ps : total tt1 (with_result (call_asm a c ps)).
Proof. unfold with_result. apply total_then; [apply total_call_asm|]. intros [z|]; [apply t_ret; exact I | apply t_fault]. Qed.
Lemma total_asm' a c ps : total tt1 (without_result (call_asm a c ps)).
Proof. unfold without_result. apply total_then; [apply total_call_asm|]. intros _. apply t_ret; exact I. Qed.
Ltac known ::= lazymatch goal with
  | |- total _ (encodeOne _ _) => apply total_encodeOne
  | |- total _ (Put4uint32Scalar _ _) => apply total_Put4uint32Scalar
  | |- total _ (Put4uint32DeltaScalar _ _ _) => apply total_Put4uint32DeltaScalar
  | |- total _ (PutUint32Scalar _ _ _) => apply total_PutUint32Scalar
  | |- total _ (PutUint32DeltaScalar _ _ _ _) => apply total_PutUint32DeltaScalar
  | |- total _ (Put8uint32FastAsm _ _ _ _ _) => apply total_asm
  | |- total _ (Put8uint32DeltaFastAsm _ _ _ _ _ _) => apply total_asm
  end.
Lemma total_Put8uint32Scalar i o : total tt1 (Put8uint32Scalar i o).
Proof. unfold Put8uint32Scalar. tot. Qed.
Lemma total_Put8uint32DeltaScalar i o p : total tt1 (Put8uint32DeltaScalar i o p).
Proof. unfold Put8uint32DeltaScalar. tot. Qed.
Lemma total_Put8uint32Fast a i o : total tt1 (Put8uint32Fast a i o).
Proof. destruct a; [apply total_asm | apply t_panic]. Qed.
Lemma total_Put8uint32DeltaFast a i o p : total tt1 (Put8uint32DeltaFast a i o p).
Proof. destruct a; [apply total_asm | apply t_panic]. Qed.
Lemma total_Put8uint32 a i o : total tt1 (Put8uint32 a i o).
Proof. unfold Put8uint32. destruct (encGetMode a); first [apply total_Put8uint32Scalar | apply total_Put8uint32Fast]. Qed.
Lemma total_Put8uint32Delta a i o p : total tt1 (Put8uint32Delta a i o p).
Proof. unfold Put8uint32Delta. destruct (encGetMode a); first [apply total_Put8uint32DeltaScalar | apply total_Put8uint32DeltaFast]. Qed.

(** ** Decoding *)
Lemma total_decodeOne b n : total tt1 (decodeOne b n).
Proof. unfold decodeOne. tot. Qed.
Ltac known ::= apply total_decodeOne.
Lemma total_Get4uint32Scalar i o c : total tt1 (Get4uint32Scalar i o c).
Proof. unfold Get4uint32Scalar. tot. Qed.
Lemma total_Get4uint32DeltaScalar i o c p : total tt1 (Get4uint32DeltaScalar i o c p).
Proof. unfold Get4uint32DeltaScalar. tot. Qed.
Lemma total_GetUint32Scalar i o k c : total tt1 (GetUint32Scalar i o k c).
Proof.
  unfold GetUint32Scalar. destruct (c =? 0); [apply t_ret; exact I|]. set (c' := if 4 <? c then 4 else c).
  assert (c' <= 4) by (subst c'; destruct (4 <? c) eqn:?; lia).
  eapply total_bind.
  - apply total_while with (I := fun '(i, _, _) => 0 <= i) (mu := fun '(i, _, _) => Z.to_nat (4 - i)); [|lia|lia].
    intros [[j sh] t] Hj L. tot. rewrite iadd1 by lia. lia.
  - intros [[j sh] t] _. tot.
Qed.
Lemma total_GetUint32DeltaScalar i o k c p : total tt1 (GetUint32DeltaScalar i o k c p).
Proof.
  unfold GetUint32DeltaScalar. destruct (c =? 0); [apply t_ret; exact I|]. set (c' := if 4 <? c then 4 else c).
  assert (c' <= 4) by (subst c'; destruct (4 <? c) eqn:?; lia).
  eapply total_bind.
  - apply total_while with (I := fun '(i, _, _, _) => 0 <= i) (mu := fun '(i, _, _, _) => Z.to_nat (4 - i)); [|lia|lia].
    intros [[[j sh] t] q] Hj L. tot. rewrite iadd1 by lia. lia.
  - intros [[[j sh] t] q] _. tot.
Qed.
Ltac known ::= lazymatch goal with
  | |- total _ (Get4uint32Scalar _ _ _) => apply total_Get4uint32Scalar
  | |- total _ (Get4uint32DeltaScalar _ _ _ _) => apply total_Get4uint32DeltaScalar
  | |- total _ (GetUint32Scalar _ _ _ _) => apply total_GetUint32Scalar
  | |- total _ (GetUint32DeltaScalar _ _ _ _ _) => apply total_GetUint32DeltaScalar
  | |- total _ (Get8uint32FastAsm _ _ _ _ _ _) => apply total_asm'
  | |- total _ (Get8uint32DeltaFastAsm _ _ _ _ _ _ _) => apply total_asm'
  end.
Lemma total_Get8uint32Scalar i o c : total tt1 (Get8uint32Scalar i o c).
Proof. unfold Get8uint32Scalar. tot. Qed.
Lemma total_Get8uint32DeltaScalar i o c p : total tt1 (Get8uint32DeltaScalar i o c p).
Proof. unfold Get8uint32DeltaScalar. tot. Qed.
Lemma total_Get8uint32Fast a i o c : total tt1 (Get8uint32Fast a i o c).
Proof. destruct a; [apply total_asm' | apply t_panic]. Qed.
Lemma total_Get8uint32DeltaFast a i o c p : total tt1 (Get8uint32DeltaFast a i o c p).
Proof. destruct a; [apply total_asm' | apply t_panic]. Qed.
Lemma total_Get8uint32 a i o c : total tt1 (Get8uint32 a i o c).
Proof. unfold Get8uint32. destruct (decGetMode a); first [apply total_Get8uint32Scalar | apply total_Get8uint32Fast]. Qed.
Lemma total_Get8uint32Delta a i o c p : total tt1 (Get8uint32Delta a i o c p).
Proof. unfold Get8uint32Delta. destruct (decGetMode a); first [apply total_Get8uint32DeltaScalar | apply total_Get8uint32DeltaFast]. Qed.

(** ** Writers *)
(** A slice as Go makes them: 0 <= len <= cap, and far fewer than 2^60 elements. *)
Definition sane (s : slice) : Prop := 0 <= s_len s <= s_cap s /\ s_cap s <= 2 ^ 60.
Lemma andnot_le a b : 0 <= a -> 0 <= b -> 0 <= iandnot a b <= a.
Proof.
  intros Ha Hb. unfold iandnot. assert (0 <= Z.ldiff a b) by (apply Z.ldiff_nonneg; lia).
  enough (Z.land a b + Z.ldiff a b = a /\ 0 <= Z.land a b) by lia. split; [|apply Z.land_nonneg; lia].
  rewrite Z.add_nocarry_lxor; [|apply Z.bits_inj'; intros k Hk; rewrite Z.land_spec, Z.land_spec, Z.ldiff_spec, Z.bits_0; destruct (Z.testbit a k), (Z.testbit b k); reflexivity].
  apply Z.bits_inj'; intros k Hk. rewrite Z.lxor_spec, Z.land_spec, Z.ldiff_spec. destruct (Z.testbit a k), (Z.testbit b k); reflexivity.
Qed.
Lemma quarter n : 0 <= n <= 2 ^ 60 -> 0 <= idiv (iadd n 3) 4 <= n /\ 4 * idiv (iadd n 3) 4 <= n + 3.
Proof.
  intros H. rewrite iadd1 by lia. unfold idiv. rewrite i64_small; rewrite Z.quot_div_nonneg by lia.
  - Z.to_euclidean_division_equations; lia.
  - pose proof (Z.div_pos (n + 3) 4). pose proof (Z.div_le_upper_bound (n + 3) 4 (n + 3)). lia.
Qed.
Lemma isub1 a b : - 2 ^ 62 <= a <= 2 ^ 62 -> - 2 ^ 61 <= b <= 2 ^ 61 -> isub a b = a - b.
Proof. intros. unfold isub. apply i64_small. lia. Qed.
Ltac known ::= lazymatch goal with
  | |- total _ (Put4uint32Scalar _ _) => apply total_Put4uint32Scalar
  | |- total _ (Put4uint32DeltaScalar _ _ _) => apply total_Put4uint32DeltaScalar
  | |- total _ (PutUint32Scalar _ _ _) => apply total_PutUint32Scalar
  | |- total _ (PutUint32DeltaScalar _ _ _ _) => apply total_PutUint32DeltaScalar
  | |- total _ (Put8uint32FastAsm _ _ _ _ _) => apply total_asm
  | |- total _ (Put8uint32DeltaFastAsm _ _ _ _ _ _) => apply total_asm
  | |- total _ (slice_to _ _) => apply total_slice_range
  end.
Lemma total_WriteAllScalar blk inp : sane inp -> total tt1 (WriteAllScalar blk inp).
Proof.
  intros [Hl Hc]. unfold WriteAllScalar. cbv zeta. pose proof (andnot_le (s_len inp) (isub Writer.jump 1) ltac:(lia) ltac:(vm_compute; discriminate)) as L1.
  pose proof (andnot_le (s_len inp) 3 ltac:(lia) ltac:(lia)) as L2. unfold wfuel.
  tot1. eapply total_bind.
  - apply total_while with (I := fun '(_, _, e) => 0 <= e) (mu := fun '(_, _, e) => Z.to_nat (s_len inp - e)); [|lia|lia].
    intros [[d c] e] He L. unfold Writer.jump in *. tot. cbn [s_len s_cap] in *. rewrite iadd1 by lia. lia.
  - intros s Is. eapply total_bind.
    + apply total_while with (I := fun '(_, _, e) => 0 <= e) (mu := fun '(_, _, e) => Z.to_nat (s_len inp - e)); [|exact Is|destruct s as [[d c] e]; lia].
      intros [[d c] e] He L. tot. rewrite iadd1 by lia. lia.
    + intros [[d c] e] He. tot.
Qed.
Lemma total_WriteAllDeltaScalar blk inp p : sane inp -> total tt1 (WriteAllDeltaScalar blk inp p).
Proof.
  intros [Hl Hc]. unfold WriteAllDeltaScalar. cbv zeta. pose proof (andnot_le (s_len inp) (isub Writer.jump 1) ltac:(lia) ltac:(vm_compute; discriminate)) as L1.
  pose proof (andnot_le (s_len inp) 3 ltac:(lia) ltac:(lia)) as L2. unfold wfuel.
  tot1. eapply total_bind.
  - apply total_while with (I := fun '(_, _, e, _) => 0 <= e) (mu := fun '(_, _, e, _) => Z.to_nat (s_len inp - e)); [|lia|lia].
    intros [[[d c] e] q] He L. unfold Writer.jump in *. tot. cbn [s_len s_cap] in *. rewrite iadd1 by lia. lia.
  - intros s Is. eapply total_bind.
    + apply total_while with (I := fun '(_, _, e, _) => 0 <= e) (mu := fun '(_, _, e, _) => Z.to_nat (s_len inp - e)); [|exact Is|destruct s as [[[d c] e] q]; lia].
      intros [[[d c] e] q] He L. tot. rewrite iadd1 by lia. lia.
    + intros [[[d c] e] q] He. tot.
Qed.
Lemma low32 c : 0 <= c <= 2 ^ 60 -> iandnot (imul (isub c 3) 4) 31 <= Z.max 0 (4 * c - 12).
Proof.
  intros H. rewrite isub1 by lia. unfold imul. rewrite i64_small by lia.
  destruct (Z_lt_dec ((c - 3) * 4) 0) as [N|N].
  - assert (iandnot ((c - 3) * 4) 31 < 0) by (unfold iandnot; apply Z.ldiff_neg; lia). lia.
  - pose proof (andnot_le ((c - 3) * 4) 31). lia.
Qed.
Lemma total_WriteAllFast a blk inp : sane inp -> total tt1 (WriteAllFast a blk inp).
Proof.
  intros [Hl Hc]. destruct a as [x y|]; [|apply t_panic]. unfold WriteAllFast. cbv zeta.
  pose proof (quarter (s_len inp) ltac:(lia)) as [Q1 Q2]. set (q := idiv (iadd (s_len inp) 3) 4) in *.
  pose proof (low32 q ltac:(lia)) as L3. set (l := iandnot (imul (isub q 3) 4) 31) in *. clearbody q l. unfold wfuel.
  tot1. eapply total_bind.
  - apply total_while with (I := fun '(_, c, e) => 0 <= c) (mu := fun '(_, _, e) => Z.to_nat (s_len inp - e)); [|lia|lia].
    intros [[d c] e] He L. tot. cbn [s_len s_cap] in *. split; [lia|]. rewrite iadd1 by lia. lia.
  - intros s Is. eapply total_bind.
    + apply total_while with (I := fun '(_, c, e) => 0 <= c) (mu := fun '(_, c, e) => Z.to_nat (s_len inp - c)); [|exact Is|destruct s as [[d c] e]; lia].
      intros [[d c] e] He L. rewrite isub1 in L by lia. tot. rewrite iadd1 by lia. lia.
    + clear s Is. intros s Is. eapply total_bind.
      * apply total_while with (I := fun '(_, c, e) => 0 <= c) (mu := fun '(_, c, e) => Z.to_nat (s_len inp - c)); [|exact Is|destruct s as [[d c] e]; lia].
        intros [[d c] e] He L. cbv zeta. tot; rewrite iadd1 by lia; lia.
      * intros [[d c] e] He. tot.
Qed.
Lemma total_WriteAllDeltaFast a blk inp p : sane inp -> total tt1 (WriteAllDeltaFast a blk inp p).
Proof.
  intros [Hl Hc]. destruct a as [x y|]; [|apply t_panic]. unfold WriteAllDeltaFast. cbv zeta.
  pose proof (quarter (s_len inp) ltac:(lia)) as [Q1 Q2]. set (q := idiv (iadd (s_len inp) 3) 4) in *.
  pose proof (low32 q ltac:(lia)) as L3. set (l := iandnot (imul (isub q 3) 4) 31) in *. clearbody q l. unfold wfuel.
  tot1. eapply total_bind.
  - apply total_while with (I := fun '(_, c, e, _) => 0 <= c) (mu := fun '(_, _, e, _) => Z.to_nat (s_len inp - e)); [|lia|lia].
    intros [[[d c] e] w] He L. tot. cbn [s_len s_cap] in *. split; [lia|]. rewrite iadd1 by lia. lia.
  - intros s Is. eapply total_bind.
    + apply total_while with (I := fun '(_, c, e, _) => 0 <= c) (mu := fun '(_, c, e, _) => Z.to_nat (s_len inp - c)); [|exact Is|destruct s as [[[d c] e] w]; lia].
      intros [[[d c] e] w] He L. rewrite isub1 in L by lia. tot. rewrite (iadd1 c) by lia. lia.
    + clear s Is. intros s Is. eapply total_bind.
      * apply total_while with (I := fun '(_, c, e, _) => 0 <= c) (mu := fun '(_, c, e, _) => Z.to_nat (s_len inp - c)); [|exact Is|destruct s as [[[d c] e] w]; lia].
        intros [[[d c] e] w] He L. cbv zeta. tot; rewrite (iadd1 c) by lia; lia.
      * intros [[[d c] e] w] He. tot.
Qed.
Lemma total_WriteAll a blk inp : sane inp -> total tt1 (WriteAll a blk inp).
Proof. intros H. unfold WriteAll. destruct (encGetMode a); first [apply total_WriteAllScalar | apply total_WriteAllFast]; exact H. Qed.
Lemma total_WriteAllDelta a blk inp p : sane inp -> total tt1 (WriteAllDelta a blk inp p).
Proof. intros H. unfold WriteAllDelta. destruct (encGetMode a); first [apply total_WriteAllDeltaScalar | apply total_WriteAllDeltaFast]; exact H. Qed.

(** ** Readers; nothing is assumed about [count] *)
Ltac known ::= lazymatch goal with
  | |- total _ (Get4uint32Scalar _ _ _) => apply total_Get4uint32Scalar
  | |- total _ (Get4uint32DeltaScalar _ _ _ _) => apply total_Get4uint32DeltaScalar
  | |- total _ (GetUint32Scalar _ _ _ _) => apply total_GetUint32Scalar
  | |- total _ (GetUint32DeltaScalar _ _ _ _ _) => apply total_GetUint32DeltaScalar
  | |- total _ (Get8uint32FastAsm _ _ _ _ _ _) => apply total_asm'
  | |- total _ (Get8uint32DeltaFastAsm _ _ _ _ _ _ _) => apply total_asm'
  end.
Lemma total_ReadAllScalar n s o : sane s -> sane o -> total tt1 (ReadAllScalar n s o).
Proof.
  intros [Hl Hc] [Ol Oc]. unfold ReadAllScalar. cbv zeta. unfold rfuel. eapply total_bind.
  - apply total_while with (I := fun '(_, _, e) => 0 <= e) (mu := fun '(_, _, e) => Z.to_nat (s_cap o - e)); [|lia|lia].
    intros [[d c] e] He L. unfold Reader.jump in *. tot. cbn [s_len s_cap] in *. rewrite iadd1 in * by lia. lia.
  - intros st Is. eapply total_bind.
    + apply total_while with (I := fun '(_, _, e) => 0 <= e) (mu := fun '(_, _, e) => Z.to_nat (s_cap o + 1 - e)); [|exact Is|destruct st as [[d c] e]; lia].
      intros [[d c] e] He L. tot. rewrite iadd1 by lia. lia.
    + intros [[d c] e] He. tot.
Qed.
Lemma total_ReadAllDeltaScalar n s o p : sane s -> sane o -> total tt1 (ReadAllDeltaScalar n s o p).
Proof.
  intros [Hl Hc] [Ol Oc]. unfold ReadAllDeltaScalar. cbv zeta. unfold rfuel. eapply total_bind.
  - apply total_while with (I := fun '(_, _, e, _) => 0 <= e) (mu := fun '(_, _, e, _) => Z.to_nat (s_cap o - e)); [|lia|lia].
    intros [[[d c] e] q] He L. unfold Reader.jump in *. tot. cbn [s_len s_cap] in *. rewrite (iadd1 e) in * by lia. lia.
  - intros st Is. eapply total_bind.
    + apply total_while with (I := fun '(_, _, e, _) => 0 <= e) (mu := fun '(_, _, e, _) => Z.to_nat (s_cap o + 1 - e)); [|exact Is|destruct st as [[[d c] e] q]; lia].
      intros [[[d c] e] q] He L. tot. rewrite (iadd1 e 4) by lia. lia.
    + intros [[[d c] e] q] He. tot.
Qed.
Lemma total_ReadAllFast a n s o : sane s -> sane o -> total tt1 (ReadAllFast a n s o).
Proof.
  intros [Hl Hc] [Ol Oc]. destruct a as [x y|]; [|apply t_panic]. unfold ReadAllFast. cbv zeta. unfold rfuel.
  generalize (idiv (iadd n 3) 4). intros q. generalize (iandnot (imul (isub q 3) 4) 31). intros l. eapply total_bind.
  - apply total_while with (I := fun '(_, c, e) => 0 <= c) (mu := fun '(_, _, e) => Z.to_nat (s_cap o - e)); [|lia|lia].
    intros [[d c] e] He L. tot. cbn [s_len s_cap] in *. split; [lia|]. rewrite (iadd1 e) in * by lia. lia.
  - intros st Is. eapply total_bind.
    + apply total_while with (I := fun '(_, c, e) => 0 <= c) (mu := fun '(_, c, e) => Z.to_nat (s_len s - c)); [|exact Is|destruct st as [[d c] e]; lia].
      intros [[d c] e] He L. tot. rewrite (iadd1 c) by lia. lia.
    + clear st Is. intros st Is. apply total_then; [|intros ?; tot].
      eapply total_mono; [|apply total_while with (I := fun '(_, c, e) => 0 <= c) (mu := fun '(_, c, e) => Z.to_nat (s_len s - c)); [|exact Is|destruct st as [[d c] e]; lia]].
      * intros ? _. exact I.
      * intros [[d c] e] He L. tot; rewrite (iadd1 c) by lia; lia.
Qed.
Lemma total_ReadAllDeltaFast a n s o p : sane s -> sane o -> total tt1 (ReadAllDeltaFast a n s o p).
Proof.
  intros [Hl Hc] [Ol Oc]. destruct a as [x y|]; [|apply t_panic]. unfold ReadAllDeltaFast. cbv zeta. unfold rfuel.
  generalize (idiv (iadd n 3) 4). intros q. generalize (iandnot (imul (isub q 3) 4) 31). intros l. eapply total_bind.
  - apply total_while with (I := fun '(_, c, e, _) => 0 <= c) (mu := fun '(_, _, e, _) => Z.to_nat (s_cap o - e)); [|lia|lia].
    intros [[[d c] e] w] He L. tot. cbn [s_len s_cap] in *. split; [lia|]. rewrite (iadd1 e) in * by lia. lia.
  - intros st Is. eapply total_bind.
    + apply total_while with (I := fun '(_, c, e, _) => 0 <= c) (mu := fun '(_, c, e, _) => Z.to_nat (s_len s - c)); [|exact Is|destruct st as [[[d c] e] w]; lia].
      intros [[[d c] e] w] He L. tot. rewrite (iadd1 c) by lia. lia.
    + clear st Is. intros st Is. apply total_then; [|intros ?; tot].
      eapply total_mono; [|apply total_while with (I := fun '(_, c, e, _) => 0 <= c) (mu := fun '(_, c, e, _) => Z.to_nat (s_len s - c)); [|exact Is|destruct st as [[[d c] e] w]; lia]].
      * intros ? _. exact I.
      * intros [[[d c] e] w] He L. tot; rewrite (iadd1 c) by lia; lia.
Qed.
Lemma total_ReadAll a n s o : sane s -> sane o -> total tt1 (ReadAll a n s o).
Proof. intros. unfold ReadAll. destruct (decGetMode a); first [apply total_ReadAllScalar | apply total_ReadAllFast]; assumption. Qed.
Lemma total_ReadAllDelta a n s o p : sane s -> sane o -> total tt1 (ReadAllDelta a n s o p).
Proof. intros. unfold ReadAllDelta. destruct (decGetMode a); first [apply total_ReadAllDeltaScalar | apply total_ReadAllDeltaFast]; assumption. Qed.

(** ** pkg/util *)
Lemma total_Delta inp out : sane inp -> total tt1 (Delta inp out).
Proof.
  intros [Hl Hc]. unfold Delta. apply total_then; [|intros; tot].
  eapply total_mono; [|apply total_while with (I := fun i => 0 <= i) (mu := fun i => Z.to_nat (s_len inp - i)); [|lia|lia]]; [intros; exact I|].
  intros i Hi L. tot. rewrite iadd1 by lia. lia.
Qed.
Lemma total_PutUvarint b x : 0 <= x < 2 ^ 64 -> total tt1 (PutUvarint b x).
Proof.
  intros H. unfold PutUvarint. eapply total_bind; [|intros [j y] _; tot].
  apply total_while with (I := fun '(_, x) => 0 <= x) (mu := fun '(_, x) => Z.to_nat (Z.log2 x / 7)); [|lia|].
  - intros [j y] Hy L. tot. rewrite Z.shiftr_nonneg. split; [exact Hy|].
    assert (7 <= Z.log2 y) by (apply Z.log2_le_pow2; lia).
    rewrite Z.log2_shiftr by lia. Z.to_euclidean_division_equations; lia.
  - assert (Z.log2 x <= 63) by (destruct (Z.eq_dec x 0) as [->|]; [vm_compute; discriminate | enough (Z.log2 x < 64) by lia; apply Z.log2_lt_pow2; lia]).
    pose proof (Z.log2_nonneg x). Z.to_euclidean_division_equations; lia.
Qed.
Lemma total_Uvarint c b : total tt1 (Uvarint c b).
Proof.
  unfold Uvarint. generalize (Z.to_nat (s_len b)), 0 at 1, 0 at 1, 0 at 1. induction n as [|n IH]; intros; cbn [Uvarint_from]; [apply t_ret; exact I|].
  tot. apply IH.
Qed.
Ltac known ::= lazymatch goal with
  | |- total _ (PutUvarint _ (u64 _)) => apply total_PutUvarint; unfold u64; apply Z.mod_pos_bound; lia
  | |- total _ (Uvarint _ _) => apply total_Uvarint
  end.
Lemma total_PutVarint nums out : sane nums -> total tt1 (PutVarint nums out).
Proof.
  intros [Hl Hc]. unfold PutVarint. eapply total_bind; [|intros ? _; tot].
  apply total_while with (I := fun '(i, _) => 0 <= i) (mu := fun '(i, _) => Z.to_nat (s_len nums - i)); [|lia|lia].
  intros [i pos] Hi L. tot. rewrite iadd1 by lia. lia.
Qed.
Lemma total_PutDeltaVarint nums out p : sane nums -> total tt1 (PutDeltaVarint nums out p).
Proof.
  intros [Hl Hc]. unfold PutDeltaVarint. eapply total_bind; [|intros ? _; tot].
  apply total_while with (I := fun '(i, _, _) => 0 <= i) (mu := fun '(i, _, _) => Z.to_nat (s_len nums - i)); [|lia|lia].
  intros [[i pos] q] Hi L. tot. rewrite iadd1 by lia. lia.
Qed.
Lemma total_GetVarint c data out : sane out -> total tt1 (GetVarint c data out).
Proof.
  intros [Hl Hc]. unfold GetVarint. eapply total_bind; [|intros ? _; tot].
  apply total_while with (I := fun '(_, i) => 0 <= i) (mu := fun '(_, i) => Z.to_nat (s_len out - i)); [|lia|lia].
  intros [pos i] Hi L. tot. rewrite iadd1 by lia. lia.
Qed.
Lemma total_GetDeltaVarint c data out p : sane out -> total tt1 (GetDeltaVarint c data out p).
Proof.
  intros [Hl Hc]. unfold GetDeltaVarint. eapply total_bind; [|intros ? _; tot].
  apply total_while with (I := fun '(_, i, _) => 0 <= i) (mu := fun '(_, i, _) => Z.to_nat (s_len out - i)); [|lia|lia].
  intros [[pos i] q] Hi L. tot. rewrite iadd1 by lia. lia.
Qed.
