(** * A sound assignment of registers does not change what a routine does *)
From stdpp Require Import prelude list.
From Coq Require Import ZArith Lia.
From Verif Require Import Spec GoSem Shared Asm AsmProgs AvoGen AvoSem.
Local Open Scope Z_scope.

(** Two computations doing the same accesses and ending alike, with related values. *)
Fixpoint psim {A B} (R : A -> B -> Prop) (p : prog A) (q : prog B) : Prop :=
  match p, q with
  | Ret a, Ret b => R a b
  | GoPanic, GoPanic | Fault, Fault | BadInstr, BadInstr | Diverge, Diverge => True
  | ReadB b i k, ReadB b' i' k' => b = b' /\ i = i' /\ forall v, psim R (k v) (k' v)
  | WriteB b i v k, WriteB b' i' v' k' => b = b' /\ i = i' /\ v = v' /\ psim R k k'
  | ReadW b i k, ReadW b' i' k' => b = b' /\ i = i' /\ forall v, psim R (k v) (k' v)
  | WriteW b i v k, WriteW b' i' v' k' => b = b' /\ i = i' /\ v = v' /\ psim R k k'
  | AllocB b n k, AllocB b' n' k' => b = b' /\ n = n' /\ psim R k k'
  | _, _ => False
  end.
Lemma psim_refl {A} (p : prog A) : psim eq p p.
Proof. induction p; cbn; auto. Qed.
Lemma psim_bind {A B C D} (R : A -> B -> Prop) (S : C -> D -> Prop) p q f g :
  psim R p q -> (forall a b, R a b -> psim S (f a) (g b)) -> psim S (bind p f) (bind q g).
Proof.
  revert q. induction p; intros q Hpq Hfg; destruct q; cbn in Hpq |- *; try contradiction; auto.
  all: repeat match goal with H : _ /\ _ |- _ => destruct H end; subst; repeat split; auto.
Qed.
Lemma psim_run {A} (p q : prog A) m : psim eq p q -> run p m = run q m.
Proof.
  revert q m. induction p; intros q m Hpq; destruct q; cbn in Hpq |- *; try contradiction; subst; auto.
  all: repeat match goal with H : _ /\ _ |- _ => destruct H end; subst; auto.
  all: try (destruct (hget _ _ _); [| reflexivity]; erewrite H by eauto; reflexivity).
  all: try (destruct (hput _ _ _ _); [| reflexivity]; erewrite IHp by eauto; reflexivity).
  destruct (mb m !! b0); [reflexivity |]. erewrite IHp by eauto; reflexivity.
Qed.

(** The registers in [lg], [lx] hold the same in both machines. *)
Definition rel (g : nat -> gpr) (x : nat -> xreg) (lg lx : list nat) (s : vstate) (t : astate) : Prop :=
  (forall r, In r lg -> vg s r = gp t (g r)) /\ (forall r, In r lx -> vx s r = xm t (x r)) /\ vret s = aret t.

Lemma gpr_eqb_eq a b : gpr_eqb a b = true <-> a = b.
Proof. split; destruct a, b; cbn; congruence. Qed.
Lemma xreg_eqb_eq a b : xreg_eqb a b = true <-> a = b.
Proof. split; destruct a, b; cbn; congruence. Qed.

Lemma in_without d l r : In r l -> r <> d -> In r (without (Some d) l).
Proof. intros H E. cbn. apply filter_In. split; auto. destruct (Nat.eqb_spec r d); auto. Qed.

Lemma rel_setg g x lg lx s t d v :
  rel g x (without (Some d) lg) lx s t -> forallb (fun q => negb (gpr_eqb (g q) (g d))) (without (Some d) lg) = true ->
  rel g x lg lx (vsetg s d v) (setg t (g d) v).
Proof.
  intros (H1 & H2 & H3) Hf. rewrite forallb_forall in Hf. repeat split; cbn; auto.
  intros r Hr. destruct (Nat.eqb_spec r d) as [-> | E].
  - destruct (gpr_eqb _ _) eqn:Q; auto. assert (gpr_eqb (g d) (g d) = true) by (apply gpr_eqb_eq; auto). congruence.
  - pose proof (in_without d lg r Hr E) as Hw. specialize (Hf _ Hw). destruct (gpr_eqb (g r) (g d)); [discriminate |]. auto.
Qed.
Lemma rel_setx g x lg lx s t d v :
  rel g x lg (without (Some d) lx) s t -> forallb (fun q => negb (xreg_eqb (x q) (x d))) (without (Some d) lx) = true ->
  rel g x lg lx (vsetx s d v) (setx t (x d) v).
Proof.
  intros (H1 & H2 & H3) Hf. rewrite forallb_forall in Hf. repeat split; cbn; auto.
  intros r Hr. destruct (Nat.eqb_spec r d) as [-> | E].
  - destruct (xreg_eqb _ _) eqn:Q; auto. assert (xreg_eqb (x d) (x d) = true) by (apply xreg_eqb_eq; auto). congruence.
  - pose proof (in_without d lx r Hr E) as Hw. specialize (Hf _ Hw). destruct (xreg_eqb (x r) (x d)); [discriminate |]. auto.
Qed.
Lemma rel_weaken g x lg lx lg' lx' s t :
  rel g x lg lx s t -> (forall r, In r lg' -> In r lg) -> (forall r, In r lx' -> In r lx) -> rel g x lg' lx' s t.
Proof. intros (H1 & H2 & H3) Hg Hx. repeat split; auto. Qed.
Lemma rel_g g x lg lx s t r : rel g x lg lx s t -> In r lg -> gp t (g r) = vg s r.
Proof. intros (H1 & _) H. symmetry. auto. Qed.
Lemma rel_x g x lg lx s t r : rel g x lg lx s t -> In r lx -> xm t (x r) = vx s r.
Proof. intros (_ & H1 & _) H. symmetry. auto. Qed.

Definition here (g : nat -> gpr) (x : nat -> xreg) (i : vinstr) (lg lx : list nat) : bool :=
  match defg i with Some d => forallb (fun q => negb (gpr_eqb (g q) (g d))) (without (Some d) lg) | None => true end &&
  match defx i with Some d => forallb (fun q => negb (xreg_eqb (x q) (x d))) (without (Some d) lx) | None => true end.

Lemma sim1 g x f ro i lg lx s t :
  rel g x (useg i ++ without (defg i) lg) (usex i ++ without (defx i) lx) s t -> here g x i lg lx = true ->
  psim (rel g x lg lx) (vexec1 f ro i s) (exec1 f ro (assign g x i) t).
Proof.
  unfold here. intros HR HH. apply andb_true_iff in HH as (Hg & Hx).
  pose proof (fun r => rel_g _ _ _ _ _ _ r HR) as RG. pose proof (fun r => rel_x _ _ _ _ _ _ r HR) as RX.
  destruct i; cbn [vexec1 exec1 assign defg defx useg usex] in *; unfold vop2, op2;
    repeat match goal with |- context [gp t (g ?r)] => rewrite (RG r) by (cbn; auto) end;
    repeat match goal with |- context [xm t (x ?r)] => rewrite (RX r) by (cbn; auto) end.
  all: try (eapply psim_bind; [apply psim_refl | intros ? ? <-]).
  all: repeat match goal with |- psim _ (match ?e with _ => _ end) _ => destruct e; cbn [psim]; auto end; cbn [psim].
  all: try (apply rel_setg; [eapply rel_weaken; [exact HR | ..] | assumption]; intros; rewrite ?in_app_iff; auto; cbn; auto).
  all: try (apply rel_setx; [eapply rel_weaken; [exact HR | ..] | assumption]; intros; rewrite ?in_app_iff; auto; cbn; auto).
  all: destruct HR as (H1 & H2 & H3); repeat split; cbn; intros; auto; try (apply H1; cbn; auto); try (apply H2; cbn; auto).
Qed.

Lemma needs_assign g x i : needs (assign g x i) = vneeds i.
Proof. destruct i; reflexivity. Qed.

Lemma sim g x a f ro c : forall s t,
  rel g x (live defg useg c) (live defx usex c) s t ->
  apart defg useg gpr_eqb g c = true -> apart defx usex xreg_eqb x c = true ->
  psim (rel g x [] []) (vexec a f ro c s) (exec a f ro (map (assign g x) c) t).
Proof.
  induction c as [| i r IH]; intros s t HR Hg Hx; cbn [vexec exec map]; [exact HR |].
  cbn [live apart] in *. apply andb_true_iff in Hg as (Hg1 & Hg2). apply andb_true_iff in Hx as (Hx1 & Hx2).
  rewrite needs_assign. destruct (supports a (vneeds i)); [| exact I].
  eapply psim_bind.
  - eapply sim1; [exact HR |]. unfold here. rewrite Hg1, Hx1. reflexivity.
  - intros s' t' HR'. apply IH; auto.
Qed.

Theorem assign_sound g x a c ps m :
  live defg useg c = [] -> live defx usex c = [] -> apart defg useg gpr_eqb g c = true -> apart defx usex xreg_eqb x c = true ->
  run (call_described a c ps) m = run (call_asm a (map (assign g x) c) ps) m.
Proof.
  intros L1 L2 Hg Hx. apply psim_run. unfold call_described, call_asm. destruct (layout 0 ps) as [f ro].
  eapply psim_bind.
  - apply sim; auto. rewrite L1, L2. repeat split; cbn; tauto.
  - intros s t (_ & _ & H). cbn. exact H.
Qed.
