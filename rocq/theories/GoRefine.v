(** * Comparing a model function with the meaning of its source text

    [ref p q]: the computations make the same accesses and have the same outcome, except
    that [p] may run out of fuel where [q] goes on. *)
From Coq Require Import ZArith List String Ascii Bool Lia.
From Verif Require Import GoSem Shared Asm IntOps GoSyntax GoInterp.
Import ListNotations.
Local Open Scope Z_scope.

Inductive ref {A} : prog A -> prog A -> Prop :=
| ref_div q : ref Diverge q
| ref_ret a : ref (Ret a) (Ret a)
| ref_panic : ref GoPanic GoPanic
| ref_fault : ref Fault Fault
| ref_bad : ref BadInstr BadInstr
| ref_readB b i k k' : (forall v, ref (k v) (k' v)) -> ref (ReadB b i k) (ReadB b i k')
| ref_writeB b i v k k' : ref k k' -> ref (WriteB b i v k) (WriteB b i v k')
| ref_readW b i k k' : (forall v, ref (k v) (k' v)) -> ref (ReadW b i k) (ReadW b i k')
| ref_writeW b i v k k' : ref k k' -> ref (WriteW b i v k) (WriteW b i v k')
| ref_alloc b n k k' : ref k k' -> ref (AllocB b n k) (AllocB b n k').

Lemma ref_refl {A} (p : prog A) : ref p p.
Proof. induction p; constructor; auto. Qed.

(** What [ref] means for executions. *)
Lemma ref_run {A} (p q : prog A) : ref p q -> forall m, result (run p m) <> Diverged -> run q m = run p m.
Proof.
  unfold result. induction 1 as [| | | | | b i k k' H IH | b i v k k' H IH | b i k k' H IH | b i v k k' H IH | b n k k' H IH];
    intros m D; simpl in *; try reflexivity; try (destruct D; reflexivity).
  - destruct (hget (mb m) b i) as [v|]; [|reflexivity]. specialize (IH v m).
    destruct (run (k v) m) as [[r m'] t]. simpl in *. rewrite IH by exact D. reflexivity.
  - destruct (hput (mb m) b i v) as [h|]; [|reflexivity]. specialize (IH (Mem h (mw m))).
    destruct (run k _) as [[r m'] t]. simpl in *. rewrite IH by exact D. reflexivity.
  - destruct (hget (mw m) b i) as [v|]; [|reflexivity]. specialize (IH v m).
    destruct (run (k v) m) as [[r m'] t]. simpl in *. rewrite IH by exact D. reflexivity.
  - destruct (hput (mw m) b i v) as [h|]; [|reflexivity]. specialize (IH (Mem (mb m) h)).
    destruct (run k _) as [[r m'] t]. simpl in *. rewrite IH by exact D. reflexivity.
  - destruct (stdpp.base.lookup b (mb m)); [reflexivity|].
    match goal with |- context [run k ?M] => specialize (IH M) end.
    destruct (run k _) as [[r m'] t]. simpl in *. rewrite IH by exact D. reflexivity.
Qed.

Lemma ref_bind {A B} (p p' : prog A) (f g : A -> prog B) :
  ref p p' -> (forall a, ref (f a) (g a)) -> ref (bind p f) (bind p' g).
Proof. induction 1; intros E; simpl; try constructor; auto. Qed.
Lemma ref_same {A B} (p : prog A) (f g : A -> prog B) : (forall a, ref (f a) (g a)) -> ref (bind p f) (bind p g).
Proof. apply ref_bind, ref_refl. Qed.
Lemma ref_assoc {A B C} (p : prog A) (f : A -> prog B) (g : B -> prog C) q :
  ref (bind p (fun a => bind (f a) g)) q -> ref (bind (bind p f) g) q.
Proof.
  revert q. induction p as [| | | | | b i k IH | b i v k IH | b i k IH | b i v k IH | b n k IH]; simpl; intros q H; try exact H.
  all: inversion H; subst; constructor; auto.
Qed.
(** A called function with results computed from [z] by [h]. *)
Lemma ref_call {A} (M : prog A) (h : A -> R) (C : prog R) (f : A -> prog R) (g : R -> prog R) :
  ref (bind M (fun z => Ret (h z))) C -> (forall z, ref (f z) (g (h z))) -> ref (bind M f) (bind C g).
Proof.
  intros H E. revert C H. induction M as [| | | | | b i k IH | b i v k IH | b i k IH | b i v k IH | b n k IH]; simpl; intros C H;
    inversion H; subst; simpl; try constructor; auto.
Qed.
(** The same, when all results of [M] satisfy [P]. *)
Inductive post {A} (P : A -> Prop) : prog A -> Prop :=
| post_ret a : P a -> post P (Ret a)
| post_panic : post P GoPanic
| post_fault : post P Fault
| post_bad : post P BadInstr
| post_div : post P Diverge
| post_readB b i k : (forall v, post P (k v)) -> post P (ReadB b i k)
| post_writeB b i v k : post P k -> post P (WriteB b i v k)
| post_readW b i k : (forall v, post P (k v)) -> post P (ReadW b i k)
| post_writeW b i v k : post P k -> post P (WriteW b i v k)
| post_alloc b n k : post P k -> post P (AllocB b n k).
Lemma ref_call_post {A} (P : A -> Prop) (M : prog A) (h : A -> R) (C : prog R) (f : A -> prog R) (g : R -> prog R) :
  post P M -> ref (bind M (fun z => Ret (h z))) C -> (forall z, P z -> ref (f z) (g (h z))) -> ref (bind M f) (bind C g).
Proof.
  intros HP H E. revert C H. induction HP; simpl; intros C H'; inversion H'; subst; simpl; try constructor; auto.
Qed.
Lemma post_bind {A B} (P : B -> Prop) (p : prog A) (f : A -> prog B) : (forall a, post P (f a)) -> post P (bind p f).
Proof. intros H. induction p; simpl; try constructor; auto. Qed.
Lemma post_seq {A B} (Q : A -> Prop) (P : B -> Prop) (p : prog A) (f : A -> prog B) :
  post Q p -> (forall a, Q a -> post P (f a)) -> post P (bind p f).
Proof. intros H E. induction H; simpl; try constructor; auto. Qed.

(** Loops.  [e] gives the environment for the values of the variables of a model loop. *)
Lemma ref_loop {S : Type} (cond : S -> bool) (body : S -> prog S) (e : S -> env) (P : S -> Prop) c b (k : S -> prog R) k' :
  (forall s (K : bool -> prog R), P s -> c (e s) K = K (cond s)) ->
  (forall s K K', P s -> cond s = true -> (forall s', P s' -> ref (K s') (K' (e s'))) -> ref (bind (body s) K) (b (e s) K')) ->
  (forall s, P s -> cond s = false -> ref (k s) (k' (e s))) ->
  forall f n s, (f <= n)%nat -> P s -> ref (bind (while f cond body s) k) (loop n c b (e s) k').
Proof.
  intros Hc Hb Hk f. induction f as [|f IH]; intros n s Hn HP; [constructor |].
  destruct n as [|n]; [lia |]. simpl. rewrite Hc by exact HP. destruct (cond s) eqn:E; simpl.
  - apply ref_assoc, Hb; [exact HP | exact E |]. intros s' HP'. apply IH; [lia | exact HP'].
  - apply Hk; assumption.
Qed.
(** for i := range: [idx] is the model's loop counter. *)
Lemma ref_rloop {S : Type} (w : Z) (cond : S -> bool) (body : S -> prog S) (idx : S -> Z) (e : S -> env) (P : S -> Prop) len b (k : S -> prog R) k' :
  (forall s, P s -> cond s = (idx s <? len)) ->
  (forall s K K', P s -> cond s = true -> (forall s', P s' -> idx s' = iaddN w (idx s) 1 -> ref (K s') (K' (e s'))) ->
     ref (bind (body s) K) (b (idx s) (e s) K')) ->
  (forall s, P s -> ref (k s) (k' (e s))) ->
  forall f n s, (f <= n)%nat -> P s -> ref (bind (while f cond body s) k) (rloop w n len b (idx s) (e s) k').
Proof.
  intros Hc Hb Hk f. induction f as [|f IH]; intros n s Hn HP; [constructor |].
  destruct n as [|n]; [lia |]. simpl. rewrite <- Hc by exact HP. destruct (cond s) eqn:E; simpl.
  - apply ref_assoc, Hb; [exact HP | exact E |]. intros s' HP' Hi. rewrite <- Hi. apply IH; [lia | exact HP'].
  - apply Hk; assumption.
Qed.
