(** * Two executions in lock step

    [sim VB VW Q p q]: the computations [p] and [q] make the same accesses (same kind, same
    allocation, same index) in the same order and end in the same way, with results related by [Q],
    provided the bytes they find in the two memories are related by [VB] and the uint32 elements
    by [VW]; and they store only related values. *)
From stdpp Require Import prelude gmap list.
From Coq Require Import ZArith Lia.
From Verif Require Import GoSem.
Local Open Scope Z_scope.

Section sim.
Context (VB VW : nat -> Z -> Z -> Z -> Prop).

Inductive sim {A} (Q : A -> A -> Prop) : prog A -> prog A -> Prop :=
| si_ret a a' : Q a a' -> sim Q (Ret a) (Ret a')
| si_panic : sim Q GoPanic GoPanic
| si_fault : sim Q Fault Fault
| si_bad : sim Q BadInstr BadInstr
| si_div : sim Q Diverge Diverge
| si_readB b i k k' : (forall v v', VB b i v v' -> sim Q (k v) (k' v')) -> sim Q (ReadB b i k) (ReadB b i k')
| si_writeB b i v v' k k' : VB b i v v' -> sim Q k k' -> sim Q (WriteB b i v k) (WriteB b i v' k')
| si_readW b i k k' : (forall v v', VW b i v v' -> sim Q (k v) (k' v')) -> sim Q (ReadW b i k) (ReadW b i k')
| si_writeW b i v v' k k' : VW b i v v' -> sim Q k k' -> sim Q (WriteW b i v k) (WriteW b i v' k')
| si_alloc b n k k' : (forall i, VB b i 0 0) -> sim Q k k' -> sim Q (AllocB b n k) (AllocB b n k').

(** Memories with the same allocations, of the same sizes, whose elements are related. *)
Definition pairedH (V : nat -> Z -> Z -> Z -> Prop) (h h' : gmap nat (list Z)) : Prop :=
  forall b, match h !! b, h' !! b with
  | None, None => True
  | Some l, Some l' => length l = length l' /\ forall (i : nat) v v', l !! i = Some v -> l' !! i = Some v' -> V b (Z.of_nat i) v v'
  | _, _ => False
  end.
Definition paired (m m' : mem) : Prop := pairedH VB (mb m) (mb m') /\ pairedH VW (mw m) (mw m').

Definition same_end {A} (Q : A -> A -> Prop) (r r' : res A) : Prop :=
  match r, r' with
  | Ok a, Ok a' => Q a a'
  | Panicked, Panicked | Faulted, Faulted | Illegal, Illegal | Diverged, Diverged => True
  | _, _ => False
  end.

Lemma paired_get V h h' b i : pairedH V h h' ->
  (exists v v', hget h b i = Some v /\ hget h' b i = Some v' /\ V b i v v') \/ (hget h b i = None /\ hget h' b i = None).
Proof.
  intros H. specialize (H b). unfold hget. destruct (0 <=? i) eqn:E; [|by right].
  destruct (h !! b) as [l|], (h' !! b) as [l'|]; try contradiction; [|by right].
  destruct H as [Hl H]. destruct (l !! Z.to_nat i) as [v|] eqn:E1.
  - destruct (lookup_lt_is_Some_2 l' (Z.to_nat i)) as [v' E2]; [rewrite <- Hl; by eapply lookup_lt_Some|].
    left. exists v, v'. split; [done|]. split; [done|]. specialize (H _ _ _ E1 E2). rewrite Z2Nat.id in H by lia. exact H.
  - right. split; [done|]. apply lookup_ge_None. rewrite <- Hl. by apply lookup_ge_None.
Qed.
Lemma paired_put V h h' b i v v' : pairedH V h h' -> V b i v v' ->
  (exists k k', hput h b i v = Some k /\ hput h' b i v' = Some k' /\ pairedH V k k') \/ (hput h b i v = None /\ hput h' b i v' = None).
Proof.
  intros H Hv. pose proof (H b) as Hb. unfold hput. destruct (0 <=? i) eqn:E; [|by right].
  destruct (h !! b) as [l|] eqn:El, (h' !! b) as [l'|] eqn:El'; try contradiction; [|by right].
  destruct Hb as [Hl Hb]. rewrite <- Hl. destruct (Nat.ltb_spec (Z.to_nat i) (length l)) as [Hi|]; [|by right].
  left. do 2 eexists. split; [done|]. split; [done|]. intros c. destruct (decide (b = c)) as [<-|N].
  - rewrite !lookup_insert. split; [by rewrite !insert_length|]. intros j u u' E1 E2.
    destruct (decide (Z.to_nat i = j)) as [<-|Nj].
    + rewrite list_lookup_insert in E1 by lia. rewrite list_lookup_insert in E2 by lia.
      injection E1 as <-. injection E2 as <-. rewrite Z2Nat.id by lia. exact Hv.
    + rewrite list_lookup_insert_ne in E1, E2 by done. exact (Hb _ _ _ E1 E2).
  - rewrite !lookup_insert_ne by done. exact (H c).
Qed.

Lemma sim_run {A} (Q : A -> A -> Prop) p q : sim Q p q -> forall m m', paired m m' ->
  trace (run p m) = trace (run q m') /\ same_end Q (result (run p m)) (result (run q m')).
Proof.
  unfold trace, result.
  induction 1 as [a a' H| | | | |b i k k' H IH|b i v v' k k' Hv H IH|b i k k' H IH|b i v v' k k' Hv H IH|b n k k' Hz H IH];
    intros m m' [Hb Hw]; cbn; try done.
  - destruct (paired_get VB _ _ b i Hb) as [(v & v' & -> & -> & Hv)|[-> ->]]; [|done].
    destruct (IH v v' Hv m m' ltac:(done)) as [E1 E2].
    destruct (run (k v) m) as [[r n] t], (run (k' v') m') as [[r' n'] t']. cbn in *. by rewrite E1.
  - destruct (paired_put VB _ _ b i v v' Hb Hv) as [(h & h' & -> & -> & Hh)|[-> ->]]; [|done].
    destruct (IH (Mem h (mw m)) (Mem h' (mw m')) ltac:(done)) as [E1 E2].
    destruct (run k _) as [[r n] t], (run k' _) as [[r' n'] t']. cbn in *. by rewrite E1.
  - destruct (paired_get VW _ _ b i Hw) as [(v & v' & -> & -> & Hv)|[-> ->]]; [|done].
    destruct (IH v v' Hv m m' ltac:(done)) as [E1 E2].
    destruct (run (k v) m) as [[r n] t], (run (k' v') m') as [[r' n'] t']. cbn in *. by rewrite E1.
  - destruct (paired_put VW _ _ b i v v' Hw Hv) as [(h & h' & -> & -> & Hh)|[-> ->]]; [|done].
    destruct (IH (Mem (mb m) h) (Mem (mb m') h') ltac:(done)) as [E1 E2].
    destruct (run k _) as [[r n] t], (run k' _) as [[r' n'] t']. cbn in *. by rewrite E1.
  - pose proof (Hb b) as Hbb. destruct (mb m !! b) eqn:E, (mb m' !! b) eqn:E'; try contradiction; [done|].
    edestruct (IH (Mem (<[b := replicate (Z.to_nat n) 0]> (mb m)) (mw m)) (Mem (<[b := replicate (Z.to_nat n) 0]> (mb m')) (mw m'))) as [E1 E2].
    { split; [|done]. intros c. cbn. destruct (decide (b = c)) as [<-|N].
      - rewrite !lookup_insert. split; [done|]. intros i v v' H1 H2. apply lookup_replicate in H1 as [-> _], H2 as [-> _]. apply Hz.
      - rewrite !lookup_insert_ne by done. exact (Hb c). }
    destruct (run k _) as [[r j] t], (run k' _) as [[r' j'] t']. cbn in *. by rewrite E1.
Qed.

(** ** Rules *)
Lemma sim_bind {A B} (Q : A -> A -> Prop) (P : B -> B -> Prop) p q f g :
  sim Q p q -> (forall a a', Q a a' -> sim P (f a) (g a')) -> sim P (bind p f) (bind q g).
Proof. induction 1; simpl; intros E; try constructor; auto. Qed.
Lemma sim_mono {A} (P Q : A -> A -> Prop) p q : (forall a a', P a a' -> Q a a') -> sim P p q -> sim Q p q.
Proof. intros E. induction 1; constructor; auto. Qed.
Lemma sim_while {S : Type} (I : S -> S -> Prop) cond cond' body body' :
  (forall s s', I s s' -> cond s = cond' s') ->
  (forall s s', I s s' -> cond s = true -> sim I (body s) (body' s')) ->
  forall f s s', I s s' -> sim (fun s s' => I s s' /\ cond s = false) (while f cond body s) (while f cond' body' s').
Proof.
  intros Hc H f. induction f as [|f IH]; intros s s' Is; [constructor|]. simpl. rewrite <- (Hc s s') by exact Is.
  destruct (cond s) eqn:E; [|constructor; split; assumption].
  eapply sim_bind; [apply H; assumption|]. intros t t' It. apply IH, It.
Qed.
Lemma sim_assoc {A B C A' B' } (P : C -> C -> Prop) (p : prog A) (f : A -> prog B) (g : B -> prog C) (p' : prog A') (f' : A' -> prog B') (g' : B' -> prog C) :
  sim P (bind p (fun x => bind (f x) g)) (bind p' (fun x => bind (f' x) g')) -> sim P (bind (bind p f) g) (bind (bind p' f') g').
Proof.
  assert (K : forall (p : prog A) q, sim P (bind p (fun x => bind (f x) g)) q -> sim P (bind (bind p f) g) q).
  { clear. intros p. induction p as [| | | | |b i k IH|b i v k IH|b i k IH|b i v k IH|b n k IH]; intros q H; simpl in *; try exact H;
      inversion H; subst; constructor; auto. }
  assert (K' : forall (p' : prog A') q, sim P q (bind p' (fun x => bind (f' x) g')) -> sim P q (bind (bind p' f') g')).
  { clear. intros p. induction p as [| | | | |b i k IH|b i v k IH|b i k IH|b i v k IH|b n k IH]; intros q H; simpl in *; try exact H;
      inversion H; subst; constructor; auto. }
  intros H. apply K, K', H.
Qed.
Lemma sim_bind_Ret {A} (Q : A -> A -> Prop) (p q : prog A) : sim Q (bind p Ret) (bind q Ret) -> sim Q p q.
Proof.
  revert q. induction p as [| | | | |b i k IH|b i v k IH|b i k IH|b i v k IH|b n k IH]; intros q H;
    destruct q; simpl in H; inversion H; subst; constructor; auto.
Qed.
Context {B : Type} (P : B -> B -> Prop).
Lemma sim_slice_from s lo f g :
  (0 <= lo <= s_len s -> sim P (f (Slice (s_blk s) (s_off s + lo) (s_len s - lo) (s_cap s - lo))) (g (Slice (s_blk s) (s_off s + lo) (s_len s - lo) (s_cap s - lo)))) ->
  sim P (bind (slice_from s lo) f) (bind (slice_from s lo) g).
Proof. intros H. unfold slice_from. destruct (0 <=? lo) eqn:E1, (lo <=? s_len s) eqn:E2; simpl; try constructor. apply H. lia. Qed.
Lemma sim_slice_range s lo hi f g :
  (0 <= lo <= hi /\ hi <= s_cap s -> sim P (f (Slice (s_blk s) (s_off s + lo) (hi - lo) (s_cap s - lo))) (g (Slice (s_blk s) (s_off s + lo) (hi - lo) (s_cap s - lo)))) ->
  sim P (bind (slice_range s lo hi) f) (bind (slice_range s lo hi) g).
Proof. intros H. unfold slice_range. destruct (0 <=? lo) eqn:E1, (lo <=? hi) eqn:E2, (hi <=? s_cap s) eqn:E3; simpl; try constructor. apply H. lia. Qed.
Lemma sim_check_idx s i f g : (0 <= i < s_len s -> sim P (f tt) (g tt)) -> sim P (bind (check_idx s i) f) (bind (check_idx s i) g).
Proof. intros H. unfold check_idx. destruct (0 <=? i) eqn:E1, (i <? s_len s) eqn:E2; simpl; try constructor. apply H. lia. Qed.
Lemma sim_getB s i f g : (forall v v', VB (s_blk s) (s_off s + i) v v' -> 0 <= i < s_len s -> sim P (f v) (g v')) -> sim P (bind (getB s i) f) (bind (getB s i) g).
Proof. intros H. unfold getB, check_idx. destruct (0 <=? i) eqn:E1, (i <? s_len s) eqn:E2; simpl; try constructor. intros v v' Hv. apply H; [exact Hv|lia]. Qed.
Lemma sim_getW s i f g : (forall v v', VW (s_blk s) (s_off s + i) v v' -> 0 <= i < s_len s -> sim P (f v) (g v')) -> sim P (bind (getW s i) f) (bind (getW s i) g).
Proof. intros H. unfold getW, check_idx. destruct (0 <=? i) eqn:E1, (i <? s_len s) eqn:E2; simpl; try constructor. intros v v' Hv. apply H; [exact Hv|lia]. Qed.
Lemma sim_setB s i v v' f g : VB (s_blk s) (s_off s + i) v v' -> (0 <= i < s_len s -> sim P (f tt) (g tt)) -> sim P (bind (setB s i v) f) (bind (setB s i v') g).
Proof. intros Hv H. unfold setB, check_idx. destruct (0 <=? i) eqn:E1, (i <? s_len s) eqn:E2; simpl; try constructor; [exact Hv|]. apply H. lia. Qed.
Lemma sim_setW s i v v' f g : VW (s_blk s) (s_off s + i) v v' -> (0 <= i < s_len s -> sim P (f tt) (g tt)) -> sim P (bind (setW s i v) f) (bind (setW s i v') g).
Proof. intros Hv H. unfold setW, check_idx. destruct (0 <=? i) eqn:E1, (i <? s_len s) eqn:E2; simpl; try constructor; [exact Hv|]. apply H. lia. Qed.
Lemma sim_makeB b n f g : (forall i, VB b i 0 0) -> (0 <= n -> sim P (f (Slice b 0 n n)) (g (Slice b 0 n n))) -> sim P (bind (makeB b n) f) (bind (makeB b n) g).
Proof. intros Hz H. unfold makeB. destruct (n <? 0) eqn:E; simpl; constructor; [exact Hz|]. apply H. lia. Qed.
End sim.

(** One step on both sides.  [known] proves the calls. *)
Ltac sim_known := fail.
Ltac sim1 :=
  lazymatch goal with
  | |- sim _ _ _ (bind (bind _ _) _) (bind (bind _ _) _) => apply sim_assoc
  | |- sim ?V ?W ?Q (bind (Ret ?x) ?f) (bind (Ret ?y) ?g) => change (sim V W Q (f x) (g y)); cbv beta
  | |- sim _ _ _ (bind (slice_from _ _) _) _ => apply sim_slice_from; intros ?
  | |- sim _ _ _ (bind (slice_range _ _ _) _) _ => apply sim_slice_range; intros ?
  | |- sim _ _ _ (bind (check_idx _ _) _) _ => apply sim_check_idx; intros ?
  | |- sim _ _ _ (bind (getB _ _) _) _ => apply sim_getB; intros ? ? ? ?
  | |- sim _ _ _ (bind (getW _ _) _) _ => apply sim_getW; intros ? ? ? ?
  | |- sim _ _ _ (bind (setB _ _ _) _) _ => apply sim_setB; [try exact I | intros ?]
  | |- sim _ _ _ (bind (setW _ _ _) _) _ => apply sim_setW; [try exact I | intros ?]
  | |- sim _ _ _ (bind (makeB _ _) _) _ => apply sim_makeB; [intros ?; try exact I | intros ?]
  | |- sim _ _ _ (bind (if ?c then _ else _) _) (bind (if ?c then _ else _) _) => destruct c eqn:?
  | |- sim _ _ _ (bind _ _) (bind _ _) => eapply sim_bind; [solve [sim_known] | let H := fresh "H" in intros ? ? H; cbv beta in H]
  | |- sim _ _ _ (if ?c then _ else _) (if ?c then _ else _) => destruct c eqn:?
  | |- sim _ _ _ (Ret _) (Ret _) => constructor
  | |- sim _ _ _ GoPanic _ => constructor
  | |- sim _ _ _ (slice_range _ _ _) _ => apply sim_bind_Ret
  | |- sim _ _ _ (slice_to _ _) _ => unfold slice_to
  | |- sim _ _ _ (setB _ _ _) _ => apply sim_bind_Ret
  | |- sim _ _ _ (setW _ _ _) _ => apply sim_bind_Ret
  end; cbv zeta; cbn [s_len s_cap s_blk s_off fst snd].
