(** * More fuel does not change what a generator program does *)
From stdpp Require Import prelude list pmap strings.
From Coq Require Import ZArith.
From Verif Require Import SourceText GoInterp GoSyntax AvoGen GenInterp.
Local Open Scope Z_scope.

(** [f] gives up or does what [g] does. *)
Definition upto {A} (f g : G A) : Prop := forall s, f s = Stuck \/ f s = g s.
Lemma upto_refl {A} (f : G A) : upto f f.
Proof. intros s. by right. Qed.
Lemma upto_stuck {A} (f : G A) : upto stuck f.
Proof. intros s. by left. Qed.
Lemma upto_bind {A B} (f g : G A) (h k : A -> G B) : upto f g -> (forall a, upto (h a) (k a)) -> upto (gbind f h) (gbind g k).
Proof. intros H K s. unfold gbind. destruct (H s) as [E | E]; rewrite E; [by left|]. destruct (g s); [apply K | by right | by left]. Qed.
Section program.
Variable W : world.
Variable P : list (string * decl).
Variable glob : list (string * string * positive).
Definition grows (n m : nat) : Prop :=
  (forall pk e x, upto (eval W P glob n pk e x) (eval W P glob m pk e x)) /\
  (forall pk e x, upto (evalArgs W P glob n pk e x) (evalArgs W P glob m pk e x)) /\
  (forall f vs, upto (apply W P glob n f vs) (apply W P glob m f vs)) /\
  (forall pk e b, upto (execs W P glob n pk e b) (execs W P glob m pk e b)) /\
  (forall pk e s, upto (exec W P glob n pk e s) (exec W P glob m pk e s)).
Lemma grows_S n m : grows n m -> grows (S n) (S m).
Proof.
  intros (He & Ha & Hp & Hs & Hx).
  assert (H1 : forall pk e x, upto (gbind (eval W P glob n pk e x) one) (gbind (eval W P glob m pk e x) one))
    by (intros; apply upto_bind; [apply He | intros; apply upto_refl]).
  assert (Hl : forall (f g : expr -> G (list gval)), (forall a, upto (f a) (g a)) -> forall l,
    upto ((fix go (l : list expr) : G (list gval) := match l with [] => gret [] | a :: r => gdo v <- gbind (f a) one; gdo k <- go r; gret (v :: k) end) l)
         ((fix go (l : list expr) : G (list gval) := match l with [] => gret [] | a :: r => gdo v <- gbind (g a) one; gdo k <- go r; gret (v :: k) end) l)).
  { intros f g H l. induction l as [|a l IH]; [apply upto_refl|]. apply upto_bind; [apply upto_bind; [apply H | intros; apply upto_refl]|].
    intros v. apply upto_bind; [exact IH | intros; apply upto_refl]. }
  assert (Hf : forall pk e fs,
    upto ((fix go (l : list (string * expr)) : G (list (string * gval)) := match l with [] => gret [] | (f, a) :: r => gdo v <- gbind (eval W P glob n pk e a) one; gdo k <- go r; gret ((f, v) :: k) end) fs)
         ((fix go (l : list (string * expr)) : G (list (string * gval)) := match l with [] => gret [] | (f, a) :: r => gdo v <- gbind (eval W P glob m pk e a) one; gdo k <- go r; gret ((f, v) :: k) end) fs)).
  { intros pk e fs. induction fs as [|[f a] fs IH]; [apply upto_refl|]. apply upto_bind; [apply H1|].
    intros v. apply upto_bind; [exact IH | intros; apply upto_refl]. }
  assert (Ht : forall pk e t es,
    upto ((fix go (l : list expr) : G (list gval) := match l with [] => gret [] | a :: r => gdo v <- gbind (eval W P glob n pk e a) one; gdo v <- ofOption (typedTo (Some t) v); gdo k <- go r; gret (v :: k) end) es)
         ((fix go (l : list expr) : G (list gval) := match l with [] => gret [] | a :: r => gdo v <- gbind (eval W P glob m pk e a) one; gdo v <- ofOption (typedTo (Some t) v); gdo k <- go r; gret (v :: k) end) es)).
  { intros pk e t es. induction es as [|a es IH]; [apply upto_refl|]. apply upto_bind; [apply H1|]. intros v. apply upto_bind; [apply upto_refl|].
    intros u. apply upto_bind; [exact IH | intros; apply upto_refl]. }
  assert (Hd : forall l,
    upto ((fix go (l : list (gval * list gval)) : G unit := match l with [] => gret tt | (g, us) :: r => gdo_ apply W P glob n g us; go r end) l)
         ((fix go (l : list (gval * list gval)) : G unit := match l with [] => gret tt | (g, us) :: r => gdo_ apply W P glob m g us; go r end) l)).
  { intros l. induction l as [|[g us] l IH]; [apply upto_refl|]. apply upto_bind; [apply Hp | intros _; exact IH]. }
  assert (Hr : forall pk e x body l,
    upto ((fix go (l : list gval) : G flow := match l with [] => gret (Next e) | v :: r => gdo p <- alloc v; gdo f <- execs W P glob n pk ([(x, p)] :: e) body; match f with Next _ => go r | Return _ => gret f end end) l)
         ((fix go (l : list gval) : G flow := match l with [] => gret (Next e) | v :: r => gdo p <- alloc v; gdo f <- execs W P glob m pk ([(x, p)] :: e) body; match f with Next _ => go r | Return _ => gret f end end) l)).
  { intros pk e x body l. induction l as [|v l IH]; [apply upto_refl|]. apply upto_bind; [apply upto_refl|]. intros p. apply upto_bind; [apply Hs|].
    intros [|]; [exact IH | apply upto_refl]. }
  pose proof (fun pk e => Hl _ _ (He pk e)) as Hv. clear Hl.
  repeat split; intros.
  - destruct x; cbn [eval]; repeat first [apply upto_refl | apply upto_stuck | apply H1 | apply He | apply Ha | apply Hp | apply Hf | apply Ht
      | apply upto_bind; [|intros ?]
      | match goal with |- upto (match ?x with _ => _ end) _ => destruct x end].
  - destruct x as [|a [|b r]]; cbn [evalArgs].
    + apply upto_refl.
    + repeat first [apply upto_refl | apply He | apply upto_bind; [|intros ?] | match goal with |- upto (match ?x with _ => _ end) _ => destruct x end].
    + repeat first [apply upto_refl | apply He | apply Ha | apply upto_bind; [|intros ?]].
  - cbn [apply]. repeat first [apply upto_refl | apply upto_stuck | apply Hs | apply Hd | apply upto_bind; [|intros ?]
      | match goal with |- upto (match ?x with _ => _ end) _ => destruct x end].
  - destruct b as [|x b]; cbn [execs]; [apply upto_refl|]. apply upto_bind; [apply Hx|]. intros [|]; [apply Hs | apply upto_refl].
  - destruct s; cbn [exec]; repeat first [apply upto_refl | apply upto_stuck | apply H1 | apply He | apply Ha | apply Hs | apply Hx | apply Hv | apply Hr
      | apply upto_bind; [|intros ?]
      | match goal with |- upto (match ?x with _ => _ end) _ => destruct x end].
Qed.
Lemma grows_le n m : (n <= m)%nat -> grows n m.
Proof.
  revert m. induction n as [|n IH]; intros m L; [repeat split; intros; apply upto_stuck|].
  destruct m as [|m]; [lia|]. apply grows_S, IH. lia.
Qed.
End program.
Lemma upto_initVars W P n m l : (n <= m)%nat -> forall glob, upto (initVars W P n l glob) (initVars W P m l glob).
Proof.
  intros L. induction l as [|[p d] l IH]; intros glob; [apply upto_refl|]. destruct d as [| |x t [e|]|]; cbn [initVars]; try apply upto_stuck; try apply IH.
  apply upto_bind; [apply (grows_le W P glob n m L)|]. intros vs. do 3 (apply upto_bind; [apply upto_refl | intros ?]). apply IH.
Qed.
(** A program that has run to its end does the same with more fuel. *)
Lemma execute_more W n m fs : (n <= m)%nat -> execute W n fs <> Stuck -> execute W m fs = execute W n fs.
Proof.
  intros L H. unfold execute in *. destruct (linkAll fs) as [P|]; [|done].
  assert (K : upto (gdo glob <- initVars W P n (vars "main" P) []; apply W P glob n (GFn "main" "main") [])
                   (gdo glob <- initVars W P m (vars "main" P) []; apply W P glob m (GFn "main" "main") [])).
  { apply upto_bind; [by apply upto_initVars|]. intros glob. apply (grows_le W P glob n m L). }
  destruct (K start) as [E | E]; [done | by rewrite E].
Qed.
