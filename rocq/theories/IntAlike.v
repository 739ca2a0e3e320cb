(** * The size of int does not matter for slices below 2 GiB

    [alike T Q p q]: the computations make the same accesses in the same order and have the
    same outcome, which satisfies [Q], as long as the uint32 elements read from memory
    satisfy [T]; and [T] holds of the elements they write. *)
From stdpp Require Import prelude gmap list.
From Coq Require Import ZArith Lia.
From Verif Require Import GoSem Tables Shared Asm Encode Decode Writer Reader Util IntOps IntSize GoRefine Wp.
Local Open Scope Z_scope.

Inductive alike {A} (T : Z -> Prop) (Q : A -> Prop) : prog A -> prog A -> Prop :=
| al_ret a : Q a -> alike T Q (Ret a) (Ret a)
| al_panic : alike T Q GoPanic GoPanic
| al_fault : alike T Q Fault Fault
| al_bad : alike T Q BadInstr BadInstr
| al_div : alike T Q Diverge Diverge
| al_readB b i k k' : (forall v, alike T Q (k v) (k' v)) -> alike T Q (ReadB b i k) (ReadB b i k')
| al_writeB b i v k k' : alike T Q k k' -> alike T Q (WriteB b i v k) (WriteB b i v k')
| al_readW b i k k' : (forall v, T v -> alike T Q (k v) (k' v)) -> alike T Q (ReadW b i k) (ReadW b i k')
| al_writeW b i v k k' : T v -> alike T Q k k' -> alike T Q (WriteW b i v k) (WriteW b i v k')
| al_alloc b n k k' : alike T Q k k' -> alike T Q (AllocB b n k) (AllocB b n k').

(** All uint32 elements of the memory satisfy [T]. *)
Definition wordsAre (T : Z -> Prop) (m : mem) : Prop := forall b l, mw m !! b = Some l -> Forall T l.

Lemma alike_run {A} T (Q : A -> Prop) p q : alike T Q p q -> forall m, wordsAre T m -> run p m = run q m.
Proof.
  induction 1 as [| | | | | b i k k' H IH | b i v k k' H IH | b i k k' H IH | b i v k k' Hv H IH | b n k k' H IH];
    intros m Hm; simpl; try reflexivity.
  - destruct (hget (mb m) b i) as [v|]; [|reflexivity]. by rewrite IH.
  - destruct (hput (mb m) b i v) as [h|]; [|reflexivity]. by rewrite IH.
  - destruct (hget (mw m) b i) as [v|] eqn:E; [|reflexivity]. rewrite IH; [reflexivity| |exact Hm].
    unfold hget in E. destruct (0 <=? i); [|discriminate]. destruct (mw m !! b) as [l|] eqn:El; [|discriminate].
    pose proof (Hm _ _ El) as F. rewrite Forall_lookup in F. exact (F _ _ E).
  - destruct (hput (mw m) b i v) as [h|] eqn:E; [|reflexivity]. rewrite IH; [reflexivity|].
    unfold hput in E. destruct (0 <=? i); [|discriminate]. destruct (mw m !! b) as [l|] eqn:El; [|discriminate].
    destruct (_ <? _)%nat; [|discriminate]. injection E as <-. intros b' l' E'. simpl in E'.
    destruct (decide (b = b')) as [<-|N].
    + rewrite lookup_insert in E'. injection E' as <-. apply Forall_insert; [exact (Hm _ _ El) | exact Hv].
    + rewrite lookup_insert_ne in E' by exact N. exact (Hm _ _ E').
  - destruct (mb m !! b); [reflexivity|]. by rewrite IH.
Qed.

Section rules.
Context (T : Z -> Prop).
Lemma al_bind {A B} (Q : A -> Prop) (P : B -> Prop) p q f g :
  alike T Q p q -> (forall a, Q a -> alike T P (f a) (g a)) -> alike T P (bind p f) (bind q g).
Proof. induction 1; simpl; intros E; try constructor; auto. Qed.
Lemma al_mono {A} (P Q : A -> Prop) p q : (forall a, P a -> Q a) -> alike T P p q -> alike T Q p q.
Proof. intros E. induction 1; constructor; auto. Qed.
Lemma al_while {S : Type} (I : S -> Prop) cond cond' body body' :
  (forall s, I s -> cond s = cond' s) ->
  (forall s, I s -> cond s = true -> alike T I (body s) (body' s)) ->
  forall f s, I s -> alike T (fun s => I s /\ cond s = false) (while f cond body s) (while f cond' body' s).
Proof.
  intros Hc H f. induction f as [|f IH]; intros s Is; [constructor|]. simpl. rewrite <- Hc by exact Is.
  destruct (cond s) eqn:E; [|constructor; split; assumption].
  eapply al_bind; [apply H; assumption|]. intros s' Is'. apply IH, Is'.
Qed.
Context {B : Type} (P : B -> Prop).
Lemma al_slice_from s lo f g :
  (0 <= lo <= s_len s -> alike T P (f (Slice (s_blk s) (s_off s + lo) (s_len s - lo) (s_cap s - lo))) (g (Slice (s_blk s) (s_off s + lo) (s_len s - lo) (s_cap s - lo)))) ->
  alike T P (bind (slice_from s lo) f) (bind (slice_from s lo) g).
Proof. intros H. unfold slice_from. destruct (0 <=? lo) eqn:E1, (lo <=? s_len s) eqn:E2; simpl; try constructor. apply H. lia. Qed.
Lemma al_slice_range s lo hi f g :
  (0 <= lo <= hi /\ hi <= s_cap s -> alike T P (f (Slice (s_blk s) (s_off s + lo) (hi - lo) (s_cap s - lo))) (g (Slice (s_blk s) (s_off s + lo) (hi - lo) (s_cap s - lo)))) ->
  alike T P (bind (slice_range s lo hi) f) (bind (slice_range s lo hi) g).
Proof. intros H. unfold slice_range. destruct (0 <=? lo) eqn:E1, (lo <=? hi) eqn:E2, (hi <=? s_cap s) eqn:E3; simpl; try constructor. apply H. lia. Qed.
Lemma al_check_idx s i f g : (0 <= i < s_len s -> alike T P (f tt) (g tt)) -> alike T P (bind (check_idx s i) f) (bind (check_idx s i) g).
Proof. intros H. unfold check_idx. destruct (0 <=? i) eqn:E1, (i <? s_len s) eqn:E2; simpl; try constructor. apply H. lia. Qed.
Lemma al_getB s i f g : (forall v, 0 <= i < s_len s -> alike T P (f v) (g v)) -> alike T P (bind (getB s i) f) (bind (getB s i) g).
Proof. intros H. unfold getB, check_idx. destruct (0 <=? i) eqn:E1, (i <? s_len s) eqn:E2; simpl; try constructor. intros v. apply H. lia. Qed.
Lemma al_getW s i f g : (forall v, T v -> 0 <= i < s_len s -> alike T P (f v) (g v)) -> alike T P (bind (getW s i) f) (bind (getW s i) g).
Proof. intros H. unfold getW, check_idx. destruct (0 <=? i) eqn:E1, (i <? s_len s) eqn:E2; simpl; try constructor. intros v Hv. apply H; [exact Hv | lia]. Qed.
Lemma al_setB s i v f g : (0 <= i < s_len s -> alike T P (f tt) (g tt)) -> alike T P (bind (setB s i v) f) (bind (setB s i v) g).
Proof. intros H. unfold setB, check_idx. destruct (0 <=? i) eqn:E1, (i <? s_len s) eqn:E2; simpl; try constructor. apply H. lia. Qed.
Lemma al_setW s i v f g : T v -> (0 <= i < s_len s -> alike T P (f tt) (g tt)) -> alike T P (bind (setW s i v) f) (bind (setW s i v) g).
Proof. intros Hv H. unfold setW, check_idx. destruct (0 <=? i) eqn:E1, (i <? s_len s) eqn:E2; simpl; try constructor; [exact Hv|]. apply H. lia. Qed.
Lemma al_makeB b n f g : (0 <= n -> alike T P (f (Slice b 0 n n)) (g (Slice b 0 n n))) -> alike T P (bind (makeB b n) f) (bind (makeB b n) g).
Proof. intros H. unfold makeB. destruct (n <? 0) eqn:E; simpl; constructor. apply H. lia. Qed.
End rules.
Lemma bind_Ret {A} (p : prog A) : forall T (Q : A -> Prop) q, alike T Q (bind p Ret) (bind q Ret) -> alike T Q p q.
Proof.
  induction p as [| | | | |b i k IH|b i v k IH|b i k IH|b i v k IH|b n k IH]; intros T Q q H;
    destruct q; simpl in H; inversion H; subst; constructor; auto.
Qed.
Lemma al_assoc_l {A B C} T (P : C -> Prop) (p : prog A) (f : A -> prog B) (g : B -> prog C) : forall q,
  alike T P (bind p (fun x => bind (f x) g)) q -> alike T P (bind (bind p f) g) q.
Proof.
  induction p as [| | | | |b i k IH|b i v k IH|b i k IH|b i v k IH|b n k IH]; intros q H; simpl in *; try exact H;
    inversion H; subst; constructor; auto.
Qed.
Lemma al_assoc_r {A B C} T (P : C -> Prop) (p : prog A) (f : A -> prog B) (g : B -> prog C) : forall q,
  alike T P q (bind p (fun x => bind (f x) g)) -> alike T P q (bind (bind p f) g).
Proof.
  induction p as [| | | | |b i k IH|b i v k IH|b i k IH|b i v k IH|b n k IH]; intros q H; simpl in *; try exact H;
    inversion H; subst; constructor; auto.
Qed.
(** Computations which do not depend on the size of int. *)
Definition anything (_ : Z) : Prop := True.
Lemma al_post {A} (Q : A -> Prop) p : post Q p -> alike anything Q p p.
Proof. induction 1; constructor; auto; exact I. Qed.
Lemma al_refl {A} (p : prog A) : alike anything (fun _ => True) p p.
Proof. induction p; constructor; auto; exact I. Qed.

(** ** Small numbers *)
Lemma addN w a b : 32 <= w -> - 2 ^ 31 <= a + b < 2 ^ 31 -> iaddN w a b = a + b.
Proof. apply iN_small. Qed.
Lemma subN w a b : 32 <= w -> - 2 ^ 31 <= a - b < 2 ^ 31 -> isubN w a b = a - b.
Proof. apply iN_small. Qed.
Lemma mulN w a b : 32 <= w -> - 2 ^ 31 <= a * b < 2 ^ 31 -> imulN w a b = a * b.
Proof. apply iN_small. Qed.
Lemma divN w a b : 32 <= w -> - 2 ^ 31 <= Z.quot a b < 2 ^ 31 -> idivN w a b = Z.quot a b.
Proof. apply iN_small. Qed.
Lemma quot4 a : (0 <= a -> 0 <= 4 * Z.quot a 4 <= a) /\ (a <= 0 -> a <= 4 * Z.quot a 4 <= 0).
Proof. split; intros H; Z.to_euclidean_division_equations; lia. Qed.
Lemma quot8 a : 0 <= a -> 0 <= 8 * Z.quot a 8 <= a.
Proof. intros H. Z.to_euclidean_division_equations. lia. Qed.
Lemma size16 c : 0 <= ControlByteToSize c <= 16.
Proof.
  unfold ControlByteToSize.
  assert (K : Forall (fun z => 0 <= z <= 16) PerControlLenTable).
  { apply Forall_forall. assert (F : forallb (fun z => (0 <=? z) && (z <=? 16)) PerControlLenTable = true) by (vm_compute; reflexivity).
    rewrite forallb_forall in F. intros z Hz. apply elem_of_list_In in Hz. specialize (F z Hz). lia. }
  rewrite List.Forall_forall in K. destruct (nth_in_or_default (Z.to_nat c) PerControlLenTable 0) as [H | H]; [apply K, H | lia].
Qed.
Ltac sizes := repeat match goal with |- context [ControlByteToSize ?c] =>
  lazymatch goal with H : 0 <= ControlByteToSize c <= 16 |- _ => fail | _ => pose proof (size16 c) end end.
Ltac small :=
  repeat match goal with
  | |- context [iaddN ?w ?a ?b] => rewrite (addN w a b) by lia
  | |- context [isubN ?w ?a ?b] => rewrite (subN w a b) by lia
  | |- context [imulN ?w ?a ?b] => rewrite (mulN w a b) by lia
  end.
