(** * Other orders of evaluation: proofs (for C65) *)
From stdpp Require Import prelude gmap list.
From Coq Require Import ZArith String Bool Lia.
From Verif Require Import SourceText GoSyntax GoInterp AsmText GoProgram GoSource GoOrder.
From Verif Require Import Spec GoSem Shared Asm Encode Util IntOps Api ApiLemmas.
Local Open Scope string_scope.
Local Open Scope list_scope.
Local Open Scope Z_scope.

(** The outcome without the accesses. *)
Definition out {A} (p : prog A) (m : mem) : res A * mem := (result (run p m), final (run p m)).
(** If [p] returns, [q] returns the same and leaves the same memory; if [p] panics, [q] does
    not return, and if it panics it leaves the same memory. *)
Definition agree (p q : prog R) : Prop := forall m,
  match out p m with
  | (Ok v, m') => out q m = (Ok v, m')
  | (Panicked, m') => match out q m with (Ok _, _) => False | (Panicked, m2) => m2 = m' | _ => True end
  | _ => True
  end.
Lemma agree_refl p : agree p p.
Proof. intros m. by destruct (out p m) as [[] ?]. Qed.
Lemma agree_fault q : agree Fault q. Proof. done. Qed.

Lemma out_bind {A B} (p : prog A) (f : A -> prog B) m :
  out (bind p f) m = match out p m with
                     | (Ok a, m') => out (f a) m'
                     | (Panicked, m') => (Panicked, m') | (Faulted, m') => (Faulted, m') | (Illegal, m') => (Illegal, m') | (Diverged, m') => (Diverged, m')
                     end.
Proof. unfold out. rewrite run_bind. destruct (result (run p m)); unfold result, final; cbn; done. Qed.
Lemma agree_bind (p q : prog R) (f g : R -> prog R) : agree p q -> (forall v, agree (f v) (g v)) -> agree (bind p f) (bind q g).
Proof.
  intros H1 H2 m. specialize (H1 m). rewrite !out_bind. destruct (out p m) as [[v| | | |] m1]; try done.
  - rewrite H1. apply H2.
  - destruct (out q m) as [[v'| | | |] m2]; done.
Qed.
Lemma agree_same {A} (p : prog A) (f g : A -> prog R) : (forall v, agree (f v) (g v)) -> agree (bind p f) (bind p g).
Proof. intros H m. rewrite !out_bind. destruct (out p m) as [[v| | | |] m1]; try done. apply H. Qed.
Lemma agree_out p q q' : (forall m, out q m = out q' m) -> agree p q -> agree p q'.
Proof. intros H A m. specialize (A m). by rewrite <- H. Qed.
Lemma out_assoc {A B C} (p : prog A) (f : A -> prog B) (g : B -> prog C) m : out (bind (bind p f) g) m = out (bind p (fun a => bind (f a) g)) m.
Proof. rewrite !out_bind. destruct (out p m) as [[v| | | |] m1]; try done. by rewrite out_bind. Qed.
Lemma agree_assoc {A B} r (p : prog A) (f : A -> prog B) g : agree r (bind p (fun a => bind (f a) g)) -> agree r (bind (bind p f) g).
Proof. apply agree_out. intros m. by rewrite out_assoc. Qed.

(** ** Computations that only read *)
Inductive quiet : prog R -> Prop :=
| quiet_ret v : quiet (Ret v)
| quiet_panic : quiet GoPanic
| quiet_fault : quiet Fault
| quiet_bad : quiet BadInstr
| quiet_div : quiet Diverge
| quiet_readB b i k : (forall v, quiet (k v)) -> quiet (ReadB b i k)
| quiet_readW b i k : (forall v, quiet (k v)) -> quiet (ReadW b i k).
Lemma out_readB b i (k : Z -> prog R) m : out (ReadB b i k) m = match hget (mb m) b i with Some v => out (k v) m | None => (Faulted, m) end.
Proof. unfold out. cbn. destruct (hget (mb m) b i); [|done]. by destruct (run (k _) m) as [[? ?] ?]. Qed.
Lemma out_readW b i (k : Z -> prog R) m : out (ReadW b i k) m = match hget (mw m) b i with Some v => out (k v) m | None => (Faulted, m) end.
Proof. unfold out. cbn. destruct (hget (mw m) b i); [|done]. by destruct (run (k _) m) as [[? ?] ?]. Qed.
Lemma quiet_memory p : quiet p -> forall m, snd (out p m) = m.
Proof.
  induction 1 as [| | | | |b i k H IH|b i k H IH]; intros m; try done.
  - rewrite out_readB. destruct (hget (mb m) b i); [apply IH|done].
  - rewrite out_readW. destruct (hget (mw m) b i); [apply IH|done].
Qed.
Lemma quiet_out p m : quiet p -> out p m = (fst (out p m), m).
Proof. intros H. apply (quiet_memory p) with (m := m) in H. destruct (out p m); cbn in *. by subst. Qed.
Lemma quiet_bind p f : quiet p -> (forall v, quiet (f v)) -> quiet (bind p f).
Proof. intros H1 H2. induction H1; cbn; try constructor; auto. Qed.
Lemma quiet_one f vs : (forall v, quiet (f v)) -> quiet (one f vs).
Proof. intros H. destruct vs as [|v [|]]; [constructor|apply H|constructor]. Qed.
Lemma quiet_single p : quiet p -> quiet (single p).
Proof. intros H. apply quiet_bind; [done|]. intros vs. apply quiet_one. constructor. Qed.

(** ** Interleaving *)
Section mixing.
Variable pick : prog R -> prog R -> bool.
Lemma mix2_eq p q : mix2 pick p q =
  if pick p q then
      match p with
      | Ret a => bind q (fun b => Ret (a ++ b))
      | GoPanic => GoPanic
      | Fault => Fault
      | BadInstr => BadInstr
      | Diverge => Diverge
      | ReadB b i k => ReadB b i (fun v => mix2 pick (k v) q)
      | WriteB b i v k => WriteB b i v (mix2 pick k q)
      | ReadW b i k => ReadW b i (fun v => mix2 pick (k v) q)
      | WriteW b i v k => WriteW b i v (mix2 pick k q)
      | AllocB b n k => AllocB b n (mix2 pick k q)
      end
    else
      match q with
      | Ret b => bind p (fun a => Ret (a ++ b))
      | GoPanic => GoPanic
      | Fault => Fault
      | BadInstr => BadInstr
      | Diverge => Diverge
      | ReadB b i k => ReadB b i (fun v => mix2 pick p (k v))
      | WriteB b i v k => WriteB b i v (mix2 pick p k)
      | ReadW b i k => ReadW b i (fun v => mix2 pick p (k v))
      | WriteW b i v k => WriteW b i v (mix2 pick p k)
      | AllocB b n k => AllocB b n (mix2 pick p k)
      end.
Proof. destruct p, q; reflexivity. Qed.

Lemma quiet_mix2 p q : quiet p -> quiet q -> quiet (mix2 pick p q).
Proof.
  intros Hp. revert q. induction Hp as [| | | | |b i k H IH|b i k H IH]; intros q Hq; induction Hq as [| | | | |b' i' k' H' IH'|b' i' k' H' IH'];
    rewrite mix2_eq; match goal with |- quiet (if ?c then _ else _) => destruct c end;
    repeat first [constructor | apply quiet_bind | progress intros | apply IH | apply IH' | apply H | apply H']; constructor; auto.
Qed.
Definition both_out (x y : res R * mem) : option R := match x, y with (Ok a, _), (Ok b, _) => Some (a ++ b) | _, _ => None end.
(** Two computations that only read: together they return exactly if both do. *)
Lemma mix2_quiet p q m : quiet p -> quiet q ->
  match both_out (out p m) (out q m) with
  | Some c => out (mix2 pick p q) m = (Ok c, m)
  | None => match out (mix2 pick p q) m with (Ok _, _) => False | (_, m') => m' = m end
  end.
Proof.
  intros Hp. revert q. induction Hp as [v| | | | |b i k H IH|b i k H IH]; intros q Hq.
  6:{ induction Hq as [v| | | | |b' i' k' H' IH'|b' i' k' H' IH']; rewrite mix2_eq; match goal with |- context [if ?c then _ else _] => destruct c end;
      try (rewrite (out_readB b i k), (out_readB b i (fun v => mix2 pick (k v) _)); destruct (hget (mb m) b i) as [x|]; [|by cbn]; apply (IH x); first [constructor; done | constructor]); try (match goal with |- context [both_out (out ?p ?m) (out ?q _)] => is_var m; lazymatch q with Ret _ => fail | ReadB _ _ _ => fail | ReadW _ _ _ => fail | _ => idtac end; destruct (out p m) as [[] ?]; done end).
      - rewrite out_bind. pose proof (quiet_out (ReadB b i k) m ltac:(by constructor)) as E. rewrite E. destruct (fst (out (ReadB b i k) m)); cbn; done.
      - rewrite (out_readB b' i' k'), (out_readB b' i' (fun v => mix2 pick _ (k' v))). destruct (hget (mb m) b' i') as [x|]; [apply IH'|]. by destruct (out (ReadB b i k) m) as [[]].
      - rewrite (out_readW b' i' k'), (out_readW b' i' (fun v => mix2 pick _ (k' v))). destruct (hget (mw m) b' i') as [x|]; [apply IH'|]. by destruct (out (ReadB b i k) m) as [[]]. }
  6:{ induction Hq as [v| | | | |b' i' k' H' IH'|b' i' k' H' IH']; rewrite mix2_eq; match goal with |- context [if ?c then _ else _] => destruct c end;
      try (rewrite (out_readW b i k), (out_readW b i (fun v => mix2 pick (k v) _)); destruct (hget (mw m) b i) as [x|]; [|by cbn]; apply (IH x); first [constructor; done | constructor]); try (match goal with |- context [both_out (out ?p ?m) (out ?q _)] => is_var m; lazymatch q with Ret _ => fail | ReadB _ _ _ => fail | ReadW _ _ _ => fail | _ => idtac end; destruct (out p m) as [[] ?]; done end).
      - rewrite out_bind. pose proof (quiet_out (ReadW b i k) m ltac:(by constructor)) as E. rewrite E. destruct (fst (out (ReadW b i k) m)); cbn; done.
      - rewrite (out_readB b' i' k'), (out_readB b' i' (fun v => mix2 pick _ (k' v))). destruct (hget (mb m) b' i') as [x|]; [apply IH'|]. by destruct (out (ReadW b i k) m) as [[]].
      - rewrite (out_readW b' i' k'), (out_readW b' i' (fun v => mix2 pick _ (k' v))). destruct (hget (mw m) b' i') as [x|]; [apply IH'|]. by destruct (out (ReadW b i k) m) as [[]]. }
  all: induction Hq as [v'| | | | |b' i' k' H' IH'|b' i' k' H' IH']; rewrite mix2_eq; match goal with |- context [if ?c then _ else _] => destruct c end; try done;
    match goal with
    | |- context [out (bind ?q _) _] => rewrite out_bind; pose proof (quiet_out q m ltac:(by constructor)) as E; rewrite E; by destruct (fst (out q m))
    | |- context [out (ReadB b' i' (fun v => mix2 _ _ _)) _] => rewrite (out_readB b' i' k'), (out_readB b' i' (fun v => mix2 pick _ (k' v))); destruct (hget (mb m) b' i') as [x|]; [apply IH'|done]
    | |- context [out (ReadW b' i' (fun v => mix2 _ _ _)) _] => rewrite (out_readW b' i' k'), (out_readW b' i' (fun v => mix2 pick _ (k' v))); destruct (hget (mw m) b' i') as [x|]; [apply IH'|done]
    | |- context [both_out _ ?o] => by destruct o as [[] ?]
    end.
Qed.
(** One of them is a value, or an error of the kind a compiler rejects. *)
Local Ltac fin := unfold result, final in *; cbn in *; first [done | congruence | intuition congruence].
Lemma mix2_ret_l v q m : out (mix2 pick (Ret v) q) m = out (bind q (fun b => Ret (v ++ b))) m.
Proof.
  revert m. induction q as [v'| | | | |b i k IH|b i x k IH|b i k IH|b i x k IH|b n k IH]; intros m; rewrite mix2_eq; destruct (pick _ _); try done; unfold out; cbn [run bind].
  - destruct (hget (mb m) b i) as [x|]; [|done]. specialize (IH x m). unfold out in IH. destruct (run (mix2 _ _ _) m) as [[? ?] ?], (run (bind _ _) m) as [[? ?] ?]. fin.
  - destruct (hput (mb m) b i x) as [h|]; [|done]. specialize (IH (Mem h (mw m))). unfold out in IH. destruct (run (mix2 _ _ _) _) as [[? ?] ?], (run (bind _ _) _) as [[? ?] ?]. fin.
  - destruct (hget (mw m) b i) as [x|]; [|done]. specialize (IH x m). unfold out in IH. destruct (run (mix2 _ _ _) m) as [[? ?] ?], (run (bind _ _) m) as [[? ?] ?]. fin.
  - destruct (hput (mw m) b i x) as [h|]; [|done]. specialize (IH (Mem (mb m) h)). unfold out in IH. destruct (run (mix2 _ _ _) _) as [[? ?] ?], (run (bind _ _) _) as [[? ?] ?]. fin.
  - destruct (mb m !! b); [done|]. match goal with |- context [run k ?M] => specialize (IH M) | |- context [run (bind k _) ?M] => specialize (IH M) end. unfold out in IH. destruct (run (mix2 _ _ _) _) as [[? ?] ?], (run (bind _ _) _) as [[? ?] ?]. fin.
Qed.
Lemma mix2_ret_r p v m : out (mix2 pick p (Ret v)) m = out (bind p (fun a => Ret (a ++ v))) m.
Proof.
  revert m. induction p as [v'| | | | |b i k IH|b i x k IH|b i k IH|b i x k IH|b n k IH]; intros m; rewrite mix2_eq; destruct (pick _ _); try done; unfold out; cbn [run bind].
  - destruct (hget (mb m) b i) as [x|]; [|done]. specialize (IH x m). unfold out in IH. destruct (run (mix2 _ _ _) m) as [[? ?] ?], (run (bind _ _) m) as [[? ?] ?]. fin.
  - destruct (hput (mb m) b i x) as [h|]; [|done]. specialize (IH (Mem h (mw m))). unfold out in IH. destruct (run (mix2 _ _ _) _) as [[? ?] ?], (run (bind _ _) _) as [[? ?] ?]. fin.
  - destruct (hget (mw m) b i) as [x|]; [|done]. specialize (IH x m). unfold out in IH. destruct (run (mix2 _ _ _) m) as [[? ?] ?], (run (bind _ _) m) as [[? ?] ?]. fin.
  - destruct (hput (mw m) b i x) as [h|]; [|done]. specialize (IH (Mem (mb m) h)). unfold out in IH. destruct (run (mix2 _ _ _) _) as [[? ?] ?], (run (bind _ _) _) as [[? ?] ?]. fin.
  - destruct (mb m !! b); [done|]. match goal with |- context [run (bind k _) ?M] => specialize (IH M) end. unfold out in IH. destruct (run (mix2 _ _ _) _) as [[? ?] ?], (run (bind _ _) _) as [[? ?] ?]. fin.
Qed.
(** A panic of the whole is a panic of the part that is no such error. *)
Lemma mix2_fault_r p m : match out (mix2 pick p Fault) m with (Ok _, _) => False | (Panicked, m') => out p m = (Panicked, m') | _ => True end.
Proof.
  revert m. induction p as [v'| | | | |b i k IH|b i x k IH|b i k IH|b i x k IH|b n k IH]; intros m; rewrite mix2_eq; destruct (pick _ _); try done; unfold out; cbn [run bind].
  - destruct (hget (mb m) b i) as [x|]; [|done]. specialize (IH x m). unfold out in IH. destruct (run (mix2 _ _ _) m) as [[[] ?] ?], (run (k x) m) as [[? ?] ?]; fin.
  - destruct (hput (mb m) b i x) as [h|]; [|done]. specialize (IH (Mem h (mw m))). unfold out in IH. destruct (run (mix2 _ _ _) _) as [[[] ?] ?], (run k _) as [[? ?] ?]; fin.
  - destruct (hget (mw m) b i) as [x|]; [|done]. specialize (IH x m). unfold out in IH. destruct (run (mix2 _ _ _) m) as [[[] ?] ?], (run (k x) m) as [[? ?] ?]; fin.
  - destruct (hput (mw m) b i x) as [h|]; [|done]. specialize (IH (Mem (mb m) h)). unfold out in IH. destruct (run (mix2 _ _ _) _) as [[[] ?] ?], (run k _) as [[? ?] ?]; fin.
  - destruct (mb m !! b); [done|]. match goal with |- context [run k ?M] => specialize (IH M) end. unfold out in IH. destruct (run (mix2 _ _ _) _) as [[[] ?] ?], (run k _) as [[? ?] ?]; fin.
Qed.
End mixing.

(** ** Values and errors only *)
Lemma mix2_rr pick a b : mix2 pick (Ret a) (Ret b) = Ret (a ++ b).
Proof. rewrite mix2_eq. by destruct (pick _ _). Qed.
Lemma mix2_rf pick a : mix2 pick (Ret a) Fault = Fault.
Proof. rewrite mix2_eq. by destruct (pick _ _). Qed.
Lemma mix2_fr pick b : mix2 pick Fault (Ret b) = Fault.
Proof. rewrite mix2_eq. by destruct (pick _ _). Qed.
Lemma mix2_ff pick : mix2 pick Fault Fault = Fault.
Proof. rewrite mix2_eq. by destruct (pick _ _). Qed.

(** ** Meanings with continuation that only read *)
Definition cont (r : res R) (k : R -> prog R) (m : mem) : res R * mem :=
  match r with Ok v => out (k v) m | Panicked => (Panicked, m) | Faulted => (Faulted, m) | Illegal => (Illegal, m) | Diverged => (Diverged, m) end.
Definition reads (F : (R -> prog R) -> prog R) : Prop := forall m, exists r, forall k, out (F k) m = cont r k m.
Lemma reads_ret v : reads (fun k => k v). Proof. intros m. by exists (Ok v). Qed.
Lemma reads_fault : reads (fun _ => Fault). Proof. intros m. by exists Faulted. Qed.
Lemma reads_panic : reads (fun _ => GoPanic). Proof. intros m. by exists Panicked. Qed.
Lemma reads_quiet p : quiet p -> reads (bind p).
Proof. intros H m. exists (fst (out p m)). intros k. rewrite out_bind, (quiet_out p m H). by destruct (out p m) as [[] ?]. Qed.
Lemma reads_seq F (G : R -> (R -> prog R) -> prog R) : reads F -> (forall v, reads (G v)) -> reads (fun k => F (fun v => G v k)).
Proof.
  intros H1 H2 m. destruct (H1 m) as [r Hr]. destruct r as [v| | | |]; [|by (eexists; intros k; rewrite Hr; cbn; instantiate (1 := Panicked))|by (exists Faulted; intros k; rewrite Hr)|by (exists Illegal; intros k; rewrite Hr)|by (exists Diverged; intros k; rewrite Hr)].
  destruct (H2 v m) as [r2 Hr2]. exists r2. intros k. rewrite Hr. cbn. apply Hr2.
Qed.
Lemma reads_one (G : value -> (R -> prog R) -> prog R) vs : (forall v, reads (G v)) -> reads (fun k => one (fun v => G v k) vs).
Proof. intros H. destruct vs as [|v [|]]; [apply reads_fault|apply H|apply reads_fault]. Qed.
Lemma reads_boolean (G : bool -> (R -> prog R) -> prog R) v : (forall b, reads (G b)) -> reads (fun k => boolean (fun b => G b k) v).
Proof. intros H. destruct v; try apply reads_fault. apply H. Qed.

(** An operation handed a continuation. *)
Definition natural (F : (value -> prog R) -> prog R) : Prop := forall k k', (forall v, agree (k v) (k' [v])) -> agree (F k) (bind (F (fun v => Ret [v])) k').
Definition tame (F : (value -> prog R) -> prog R) : Prop := natural F /\ reads (fun k => F (fun v => k [v])) /\ forall k, (forall v, quiet (k v)) -> quiet (F k).
Lemma tame_ret v : tame (fun k => k v).
Proof. split; [|split]; [intros k k' H; apply H|apply reads_ret|done]. Qed.
Lemma tame_fault : tame (fun _ => Fault).
Proof. split; [|split]; [done|apply reads_fault|constructor]. Qed.
Lemma tame_panic : tame (fun _ => GoPanic).
Proof. split; [|split]; [intros k k' H; apply agree_refl|apply reads_panic|constructor]. Qed.
Lemma tame_readB b i g : tame (fun k => ReadB b i (fun v => k (g v))).
Proof.
  split; [|split].
  - intros k k' H m. cbn [bind]. rewrite !out_readB. destruct (hget (mb m) b i) as [x|]; [|done]. apply H.
  - intros m. destruct (hget (mb m) b i) as [x|] eqn:E; [exists (Ok [g x])|exists Faulted]; intros k; by rewrite out_readB, E.
  - intros k H. constructor. auto.
Qed.
Lemma tame_readW b i g : tame (fun k => ReadW b i (fun v => k (g v))).
Proof.
  split; [|split].
  - intros k k' H m. cbn [bind]. rewrite !out_readW. destruct (hget (mw m) b i) as [x|]; [|done]. apply H.
  - intros m. destruct (hget (mw m) b i) as [x|] eqn:E; [exists (Ok [g x])|exists Faulted]; intros k; by rewrite out_readW, E.
  - intros k H. constructor. auto.
Qed.
Lemma tame_if (b : bool) F G : tame F -> tame G -> tame (fun k => if b then F k else G k).
Proof. by destruct b. Qed.
Local Ltac tame1 := first [apply tame_ret | apply tame_fault | apply tame_panic | apply tame_if | apply tame_readB | apply tame_readW].
Lemma tame_iop w k o a b : tame (iop w k o a b).
Proof. unfold iop. repeat tame1. Qed.
Lemma tame_binary w o x y : tame (binary w o x y).
Proof.
  unfold binary. destruct (isShift o); [|destruct (isDiv o)].
  - destruct x; try apply tame_fault; destruct y as [| [] | | | | | | | |]; try apply tame_fault; unfold ishift; try (repeat tame1). destruct (cop _ _ _); tame1.
  - destruct x; try apply tame_fault; destruct y; try apply tame_fault; try (destruct (cop _ _ _); tame1); unfold idivide.
    + destruct z0; repeat tame1.
    + destruct (kind_eqb _ _); repeat tame1.
  - destruct x; try apply tame_fault; destruct y; try apply tame_fault; try apply tame_iop; try (destruct (cop _ _ _); tame1). destruct (kind_eqb _ _); [apply tame_iop|tame1].
Qed.
Lemma tame_check s i F : tame F -> tame (fun k => bind (check_idx s i) (fun _ => F k)).
Proof. unfold check_idx. destruct (_ && _); [done|]. intros _. apply tame_panic. Qed.
Lemma tame_getB s i g : tame (fun k => bind (getB s i) (fun v => k (g v))).
Proof. unfold getB, check_idx. destruct (_ && _); cbn; [apply tame_readB|apply tame_panic]. Qed.
Lemma tame_getW s i g : tame (fun k => bind (getW s i) (fun v => k (g v))).
Proof. unfold getW, check_idx. destruct (_ && _); cbn; [apply tame_readW|apply tame_panic]. Qed.
Lemma tame_index a i : tame (index a i).
Proof.
  unfold index. destruct (num i) as [z|]; [|apply tame_fault]. destruct a; try apply tame_fault; [apply tame_getB|apply tame_getW| |];
    (destruct (arrayCheck _ _) as [[]|]; [apply tame_ret|repeat tame1|apply tame_fault]).
Qed.
Lemma tame_slicing a lo hi : tame (slicing a lo hi).
Proof.
  unfold slicing. destruct a; try apply tame_fault; destruct lo as [l|], hi as [h|]; try apply tame_ret; repeat (match goal with |- context [num ?v] => destruct (num v); try apply tame_fault end);
    unfold slice_from, slice_to, slice_range; match goal with |- context [if ?c then _ else _] => destruct c end; first [apply tame_panic | apply tame_ret].
Qed.
Lemma tame_convert w c v : tame (convert w c v).
Proof. unfold convert. destruct v; tame1. Qed.

(** ** Expressions *)
Lemma expr_ind' (P : expr -> Prop) :
  (forall x, P (EId x)) -> (forall z, P (EInt z)) -> (forall s, P (EStr s)) -> (forall e x, P e -> P (ESel e x)) -> (forall o a, P a -> P (EUn o a)) ->
  (forall o a b, P a -> P b -> P (EBin o a b)) -> (forall f args, P f -> List.Forall P args -> P (ECall f args)) -> (forall a i, P a -> P i -> P (EIdx a i)) ->
  (forall a lo hi, P a -> (forall l, lo = Some l -> P l) -> (forall h, hi = Some h -> P h) -> P (ESlice a lo hi)) -> (forall t n, P n -> P (EMake t n)) ->
  (forall t es, P (ELit t es)) -> (forall t fs, P (EStruct t fs)) -> (forall ps rs b, P (EFunc ps rs b)) -> forall e, P e.
Proof.
  intros H1 H2 H3 H4 H5 H6 H7 H8 H9 H10 H11 H12 H13. fix IH 1. intros [x|z|s|e x|o a|o a b|f args|a i|a lo hi|t n|t es|t fs|ps rs b].
  - apply H1. - apply H2. - apply H3. - apply H4, IH. - apply H5, IH. - apply H6; apply IH.
  - apply H7; [apply IH|]. induction args as [|a r IHr]; constructor; [apply IH|exact IHr].
  - apply H8; apply IH.
  - apply H9; [apply IH| |]; [intros l; destruct lo as [l'|]; intros [= <-]|intros h; destruct hi as [h'|]; intros [= <-]]; apply IH.
  - apply H10, IH. - apply H11. - apply H12. - apply H13.
Qed.
