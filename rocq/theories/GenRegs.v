(** * The allocator of GenPrint.v is right for every description *)
From stdpp Require Import prelude list strings.
From Coq Require Import ZArith Lia.
From Verif Require Import Spec GoSem Asm AvoGen AvoSem AvoProof GenPrint.
Local Open Scope nat_scope.

Lemma given_cons {R} (al : list (nat * R)) v r u : given ((v, r) :: al) u = if Nat.eqb v u then Some r else given al u.
Proof. unfold given. cbn. by destruct (Nat.eqb v u). Qed.

Section registers.
Context {R : Type} (eqb : R -> R -> bool) (order : list R) (edges : list (nat * nat)).
Hypothesis eqb_eq : forall a b, eqb a b = true <-> a = b.
Definition sound (al : list (nat * R)) : Prop :=
  forall a b q, In (a, b) edges -> a <> b -> given al a = Some q -> given al b = Some q -> False.
Lemma left_free al v r a b q :
  In r (left eqb order edges al v) -> In (a, b) edges ->
  (a = v /\ given al b = Some q \/ a <> v /\ b = v /\ given al a = Some q) -> q <> r.
Proof.
  unfold left. intros H E C ->. apply filter_In in H as [_ H]. apply negb_true_iff in H.
  apply not_true_iff_false in H. apply H. clear H.
  apply existsb_exists. exists (a, b). split; [done|]. cbn.
  destruct C as [[-> G] | (N & -> & G)].
  - rewrite Nat.eqb_refl, G. by apply eqb_eq.
  - rewrite (proj2 (Nat.eqb_neq a v) N), Nat.eqb_refl, G. by apply eqb_eq.
Qed.
Lemma sound_step al v r : sound al -> In r (left eqb order edges al v) -> sound ((v, r) :: al).
Proof.
  intros S H a b q E N. rewrite !given_cons.
  destruct (Nat.eqb_spec v a) as [<-|Na], (Nat.eqb_spec v b) as [<-|Nb]; intros Ga Gb.
  - done.
  - injection Ga as <-. by eapply (left_free al v r v b r); eauto.
  - injection Gb as <-. eapply (left_free al v r a v r); eauto. 
  - by eapply S.
Qed.
Lemma tightest_in al vs v : tightest eqb order edges al vs = Some v -> In v vs.
Proof.
  revert v. induction vs as [|u vs IH]; cbn [tightest]; [done|]. intros v. destruct (tightest _ _ _ al vs) as [x|] eqn:E.
  - intros [= <-]. match goal with |- context [Nat.ltb ?a ?b] => destruct (Nat.ltb a b) end; [right; by apply (IH x) | by left].
  - intros [= <-]. by left.
Qed.
Lemma allocateIn_sound n : forall al vs al',
  sound al -> allocateIn eqb order edges n al vs = Some al' ->
  sound al' /\ forall v, (In v vs \/ given al v <> None) -> given al' v <> None.
Proof.
  induction n as [|n IH]; intros al vs al' S H; destruct vs as [|v0 vs]; cbn [allocateIn] in H; try done.
  1-2: injection H as <-; split; [done|]; intros v [[]|G]; done.
  destruct (tightest _ _ _ al (v0 :: vs)) as [v|] eqn:T; [|done].
  destruct (left eqb order edges al v) as [|r rs] eqn:L; [done|].
  apply IH in H as [S' H]; [|apply sound_step; [done|rewrite L; by left]].
  split; [done|]. intros u G. apply H. rewrite given_cons.
  destruct (Nat.eqb_spec v u) as [->|N]; [by right|]. destruct G as [G|G]; [left|by right].
  apply filter_In. split; [done|]. destruct (Nat.eqb_spec u v); [congruence|done].
Qed.
Lemma allocateIn_apart (def : vinstr -> option nat) (us : vinstr -> list nat) (dft : R) n c al :
  edges = conflicts def us c ->
  allocateIn eqb order edges n [] (seq 0 n) = Some al ->
  Forall (fun i => match def i with Some d => d < n | None => True end /\ Forall (fun u => u < n) (us i)) c ->
  apart def us eqb (fun v => default dft (given al v)) c = true.
Proof.
  intros E H F. apply allocateIn_sound in H as [S G]; [|intros ? ? ? _ _ [=]].
  assert (G' : forall v, v < n -> exists q, given al v = Some q).
  { intros v L. destruct (given al v) eqn:X; [eauto|]. exfalso. apply (G v); [left; apply in_seq; lia | done]. }
  clear G. assert (E' : forall p, In p (conflicts def us c) -> In p edges) by (by rewrite E). clear E.
  assert (L : forall c, Forall (fun i => match def i with Some d => d < n | None => True end /\ Forall (fun u => u < n) (us i)) c ->
            Forall (fun u => u < n) (live def us c)).
  { clear -F. induction 1 as [|i r [D U] _ IH]; cbn; [constructor|]. apply Forall_app. split; [done|].
    destruct (def i); cbn; [|done]. apply Forall_forall. intros x Hx. apply elem_of_list_In, filter_In in Hx as [Hx _].
    rewrite Forall_forall in IH. by apply IH, elem_of_list_In. }
  revert E'. induction F as [|i r [D U] F IH]; intros E'; cbn [apart]; [done|]. cbn [conflicts] in E'.
  apply andb_true_iff. split; [|apply IH; intros p Hp; apply E', in_or_app; by right].
  destruct (def i) as [d|] eqn:Di; [|done]. apply forallb_forall. intros q Hq.
  assert (Ed : In (d, q) edges) by (apply E', in_or_app; left; by apply in_map).
  apply filter_In in Hq as [Hq Nq]. apply negb_true_iff, Nat.eqb_neq in Nq.
  assert (Lq : q < n). { specialize (L r F). rewrite Forall_forall in L. by apply L, elem_of_list_In. }
  destruct (G' q Lq) as [x Gx], (G' d D) as [y Gy]. rewrite Gx, Gy. cbn.
  apply negb_true_iff. destruct (eqb x y) eqn:X; [|done]. apply eqb_eq in X as <-. exfalso. eapply (S d q x); eauto.
Qed.
End registers.

(** Only registers that the description has created *)
Definition created (s : bstate) : Prop :=
  Forall (fun i =>
    match defg i with Some d => d < nextG s | None => True end /\ Forall (fun u => u < nextG s) (useg i) /\
    match defx i with Some d => d < nextX s | None => True end /\ Forall (fun u => u < nextX s) (usex i)) (emitted s).
Theorem registers_sound s rg rx : registers s = Some (rg, rx) -> created s ->
  live defg useg (emitted s) = [] -> live defx usex (emitted s) = [] ->
  forall a ps m, run (call_described a (emitted s) ps) m = run (call_asm a (map (assign rg rx) (emitted s)) ps) m.
Proof.
  unfold registers. intros H C L1 L2 a ps m.
  destruct (allocateIn gpr_eqb _ _ _ _ _) as [g|] eqn:Eg; [|done].
  destruct (allocateIn xreg_eqb _ _ _ _ _) as [x|] eqn:Ex; [|done]. injection H as <- <-.
  apply assign_sound; [done..| |].
  - eapply allocateIn_apart; [apply gpr_eqb_eq | reflexivity | exact Eg |].
    eapply Forall_impl; [exact C|]. intros i (A & B & _). by split.
  - eapply allocateIn_apart; [apply xreg_eqb_eq | reflexivity | exact Ex |].
    eapply Forall_impl; [exact C|]. intros i (_ & _ & A & B). by split.
Qed.
