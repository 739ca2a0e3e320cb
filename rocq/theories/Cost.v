(** * Counting accesses: a bound on the number of loads and stores of a program,
    whatever the memory contains (used for C45) *)
From stdpp Require Import prelude gmap list.
From Coq Require Import ZArith Lia.
From Verif Require Import Spec GoSem Shared Tables Asm AsmProgs Encode Decode.
Local Open Scope Z_scope.

(** [bnd p n Q]: with a budget of [n] accesses [p] does not run out, whatever it
    reads; if it returns [a] with [n'] accesses left, [Q a n'] holds. *)
Fixpoint bnd {A} (p : prog A) (n : Z) (Q : A -> Z -> Prop) : Prop :=
  match p with
  | Ret a => Q a n
  | GoPanic | Fault | BadInstr | Diverge => True
  | ReadB _ _ k | ReadW _ _ k => 1 <= n /\ forall v, bnd (k v) (n - 1) Q
  | WriteB _ _ _ k | WriteW _ _ _ k | AllocB _ _ k => 1 <= n /\ bnd k (n - 1) Q
  end.

Lemma bnd_run {A} (p : prog A) : forall n Q m, 0 <= n -> bnd p n Q -> Z.of_nat (length (trace (run p m))) <= n.
Proof.
  unfold trace. induction p as [a| | | | |b i k IH|b i v k IH|b i k IH|b i v k IH|b n k IH]; intros n0 Q m Hn H; cbn in *; try done.
  - destruct H as [H1 H]. destruct (hget (mb m) b i); [|cbn; lia]. specialize (IH z (n0 - 1) Q m ltac:(lia) (H z)). destruct (run (k z) m) as [[? ?] ?]. cbn in *. lia.
  - destruct H as [H1 H]. destruct (hput (mb m) b i v) as [h|]; [|cbn; lia]. specialize (IH (n0 - 1) Q (Mem h (mw m)) ltac:(lia) H). destruct (run k _) as [[? ?] ?]. cbn in *. lia.
  - destruct H as [H1 H]. destruct (hget (mw m) b i); [|cbn; lia]. specialize (IH z (n0 - 1) Q m ltac:(lia) (H z)). destruct (run (k z) m) as [[? ?] ?]. cbn in *. lia.
  - destruct H as [H1 H]. destruct (hput (mw m) b i v) as [h|]; [|cbn; lia]. specialize (IH (n0 - 1) Q (Mem (mb m) h) ltac:(lia) H). destruct (run k _) as [[? ?] ?]. cbn in *. lia.
  - destruct H as [H1 H]. destruct (mb m !! b); [cbn; lia|]. specialize (IH (n0 - 1) Q (Mem (<[b:=replicate (Z.to_nat n) 0]> (mb m)) (mw m)) ltac:(lia) H). destruct (run k _) as [[? ?] ?]. cbn in *. lia.
Qed.
Lemma bnd_mono {A} (p : prog A) : forall n (Q R : A -> Z -> Prop), (forall a n', Q a n' -> R a n') -> bnd p n Q -> bnd p n R.
Proof. induction p as [a| | | | |b i k IH|b i v k IH|b i k IH|b i v k IH|b n k IH]; intros n0 Q R HQ; cbn; try done; try apply HQ; intros [H1 H2]; (split; [done|]); first [intros w; eapply IH; [exact HQ|apply H2]|eapply IH; [exact HQ|apply H2]]. Qed.
Lemma bnd_bind {A B} (p : prog A) (f : A -> prog B) : forall n Q, bnd p n (fun a n' => bnd (f a) n' Q) -> bnd (bind p f) n Q.
Proof. induction p as [a| | | | |b i k IH|b i v k IH|b i k IH|b i v k IH|b n k IH]; intros n0 Q; cbn; try done; intros [H1 H2]; (split; [done|]); first [intros w; apply IH, H2|apply IH, H2]. Qed.

(** At most [c] accesses, and the result satisfies [P]. *)
Definition costs {A} (p : prog A) (c : Z) (P : A -> Prop) : Prop := forall n, c <= n -> bnd p n (fun a n' => n - c <= n' /\ P a).
Lemma bnd_call {A B} (p : prog A) (f : A -> prog B) c P n Q : costs p c P -> c <= n ->
  (forall a n', n - c <= n' -> P a -> bnd (f a) n' Q) -> bnd (bind p f) n Q.
Proof. intros Hp Hn Hf. apply bnd_bind. eapply bnd_mono; [|apply Hp; exact Hn]. intros a n' [H1 H2]. by apply Hf. Qed.
Lemma bnd_while {S} (I : S -> Z -> Prop) (cond : S -> bool) body fuel : forall s n (Q : S -> Z -> Prop),
  (forall s n, I s n -> cond s = true -> bnd (body s) n I) -> (forall s n, I s n -> cond s = false -> Q s n) -> I s n ->
  bnd (while fuel cond body s) n Q.
Proof.
  induction fuel as [|k IH]; intros s n Q Hb HQ HI; cbn [while]; [done|]. destruct (cond s) eqn:E; [|cbn; by apply HQ].
  apply bnd_bind. eapply bnd_mono; [|apply Hb; done]. intros s' n' HI'. by apply IH.
Qed.

(** ** Primitives *)
Lemma cost_slice_from s i : costs (slice_from s i) 0 (fun _ => True).
Proof. intros n Hn. unfold slice_from. destruct (_ && _); cbn; lia. Qed.
Lemma cost_slice_from_pos s i : costs (slice_from s i) 0 (fun _ => 0 <= i).
Proof. intros n Hn. unfold slice_from. destruct (0 <=? i) eqn:E; [|done]. destruct (_ && _); cbn; lia. Qed.
Lemma cost_slice_range s i j : costs (slice_range s i j) 0 (fun _ => True).
Proof. intros n Hn. unfold slice_range. destruct (_ && _); cbn; lia. Qed.
Lemma cost_check s i : costs (check_idx s i) 0 (fun _ => True).
Proof. intros n Hn. unfold check_idx. destruct (_ && _); cbn; lia. Qed.
Lemma cost_getB s i : costs (getB s i) 1 (fun _ => True).
Proof. intros n Hn. unfold getB, check_idx. destruct (_ && _); cbn; [|done]. split; [lia|]. intros _. lia. Qed.
Lemma cost_setB s i v : costs (setB s i v) 1 (fun _ => True).
Proof. intros n Hn. unfold setB, check_idx. destruct (_ && _); cbn; lia. Qed.
Lemma cost_getW s i : costs (getW s i) 1 (fun _ => True).
Proof. intros n Hn. unfold getW, check_idx. destruct (_ && _); cbn; [|done]. split; [lia|]. intros _. lia. Qed.
Lemma cost_setW s i v : costs (setW s i v) 1 (fun _ => True).
Proof. intros n Hn. unfold setW, check_idx. destruct (_ && _); cbn; lia. Qed.
Lemma cost_makeB b k : costs (makeB b k) 1 (fun _ => True).
Proof. intros n Hn. unfold makeB. destruct (_ <? _); cbn; lia. Qed.

(** ** Assembly: the kind of the value in each register *)
Inductive kind := KI | KB | KW | KT | KU.
Definition kind_of (v : val) : kind := match v with VI _ => KI | PB _ _ => KB | PW _ _ => KW | PT _ _ => KT | VUndef => KU end.
Definition kadd (a b : kind) : kind :=
  match a, b with
  | KI, KI => KI | KI, KB | KB, KI => KB | KI, KW | KW, KI => KW | KI, KT | KT, KI => KT
  | _, _ => KU
  end.
Lemma kind_vadd a b : kind_of (vadd a b) = kadd (kind_of a) (kind_of b).
Proof. by destruct a, b. Qed.
Definition kset (g : gpr -> kind) (d : gpr) (k : kind) : gpr -> kind := fun r => if gpr_eqb r d then k else g r.
(** Element accesses of a 16-byte access; kinds after an instruction. *)
Definition kcost (k : kind) : Z := match k with KB => 16 | KW => 4 | _ => 0 end.
Definition icost (g : gpr -> kind) (i : instr) : Z :=
  match i with
  | MOVBQZX_ld a _ => match g a with KB => 1 | _ => 0 end
  | VLDDQU _ a _ | VMOVDQU _ _ a | VPSHUFB_ld a _ _ => kcost (g a)
  | _ => 0
  end.
Definition ikind (fk : Z -> kind) (g : gpr -> kind) (i : instr) : gpr -> kind :=
  match i with
  | MOVQ_arg o d => kset g d (fk o)
  | MOVQ a d => kset g d (g a)
  | MOVWQZX_arg _ d | MOVWQZX _ d | MOVBQZX _ d | MOVBQZX_ld _ d | SHLQ _ d | SHRQ _ d | VPMOVMSKB _ d => kset g d KI
  | ADDQ a d => kset g d (kadd (g a) (g d))
  | _ => g
  end.
Fixpoint ccost (fk : Z -> kind) (g : gpr -> kind) (c : list instr) : Z :=
  match c with
  | [] => 0
  | i :: r => icost g i + ccost fk (ikind fk g i) r
  end.

Lemma cost_readBs k b i : costs (readBs k b i) (Z.of_nat k) (fun _ => True).
Proof.
  revert i. induction k as [|k IH]; intros i n Hn; [cbn; lia|]. cbn [readBs bnd]. split; [lia|]. intros v.
  eapply bnd_call; [apply IH|lia|]. intros l n' H _. cbn. lia.
Qed.
Lemma cost_readWs k b i : costs (readWs k b i) (Z.of_nat k) (fun _ => True).
Proof.
  revert i. induction k as [|k IH]; intros i n Hn; [cbn; lia|]. cbn [readWs bnd]. split; [lia|]. intros v.
  eapply bnd_call; [apply IH|lia|]. intros l n' H _. cbn. lia.
Qed.
Lemma cost_writeBs vs b i : costs (writeBs b i vs) (Z.of_nat (length vs)) (fun _ => True).
Proof.
  revert i. induction vs as [|v vs IH]; intros i n Hn; [cbn in *; lia|]. cbn [writeBs bnd length] in *. split; [lia|].
  eapply bnd_mono; [|apply IH; lia]. intros u n' [H _]. split; [lia|done].
Qed.
Lemma cost_writeWs vs b i : costs (writeWs b i vs) (Z.of_nat (length vs)) (fun _ => True).
Proof.
  revert i. induction vs as [|v vs IH]; intros i n Hn; [cbn in *; lia|]. cbn [writeWs bnd length] in *. split; [lia|].
  eapply bnd_mono; [|apply IH; lia]. intros u n' [H _]. split; [lia|done].
Qed.
Lemma cost_load128 p d : costs (load128 p d) (kcost (kind_of p)) (fun _ => True).
Proof.
  destruct p; cbn [load128 kind_of kcost]; intros n Hn; [done|apply (cost_readBs 16); lia| | |done].
  - destruct (_ =? _); [|done]. eapply bnd_call; [apply (cost_readWs 4)|lia|]. intros l n' H _. cbn. lia.
  - destruct (_ && _); cbn; [lia|done].
Qed.
Lemma lanes32_length (l : list Z) : length l = 16%nat -> length (lanes32 l) = 4%nat.
Proof. intros H. do 16 (destruct l as [|? l]; [discriminate|]). destruct l; [reflexivity|discriminate]. Qed.
Lemma cost_store128 p d v : costs (store128 p d v) (kcost (kind_of p)) (fun _ => True).
Proof.
  unfold store128. destruct (length v =? 16)%nat eqn:E; [|intros n Hn; done]. apply Nat.eqb_eq in E.
  destruct p; cbn [kind_of kcost]; intros n Hn; [done| | |done|done].
  - change 16 with (Z.of_nat 16) in *. rewrite <- E in *. apply cost_writeBs; lia.
  - destruct (_ =? _); [|done]. change 4 with (Z.of_nat 4) in *. rewrite <- (lanes32_length v E) in *. apply cost_writeWs; lia.
Qed.
Lemma cost_load8 p : costs (load8 p) (match kind_of p with KB => 1 | _ => 0 end) (fun _ => True).
Proof. destruct p; cbn [load8 kind_of]; intros n Hn; try done.
  destruct (_ && _); cbn; [lia|done].
Qed.

Definition kinds (s : astate) (g : gpr -> kind) : Prop := forall r, kind_of (gp s r) = g r.
Lemma kinds_setg s g d v k : kinds s g -> kind_of v = k -> kinds (setg s d v) (kset g d k).
Proof. intros H E r. unfold setg, kset. cbn. destruct (gpr_eqb r d); [done|apply H]. Qed.
Lemma kinds_setx s g d v : kinds s g -> kinds (setx s d v) g.
Proof. intros H r. apply H. Qed.
Lemma cost_exec1 f ro i s fk g : (forall o v, frame_get f o = Some (C64 v) -> kind_of v = fk o) -> kinds s g ->
  costs (exec1 f ro i s) (icost g i) (fun s' => kinds s' (ikind fk g i)).
Proof.
  intros Hf Hk n Hn. destruct i; cbn [exec1 icost ikind] in *; unfold op2.
  all: try (cbn [bnd]; split; [lia|]; first [by apply kinds_setx|apply kinds_setg; [done|first [done|apply Hk|by rewrite kind_vadd, !Hk]]]).
  - destruct (frame_get f o) as [[v| |]|] eqn:E; try done. cbn [bnd]. split; [lia|]. apply kinds_setg; [done|by apply Hf].
  - destruct (frame_get f o) as [[v| |]|] eqn:E; try done. cbn [bnd]. split; [lia|]. by apply kinds_setg.
  - destruct (gp s s0); try done. cbn [bnd]. split; [lia|]. by apply kinds_setg.
  - destruct (gp s s0); try done. cbn [bnd]. split; [lia|]. by apply kinds_setg.
  - rewrite <- (Hk a) in *. eapply bnd_call; [apply cost_load8|exact Hn|]. intros v n' Hn' _. cbn [bnd]. split; [lia|]. by apply kinds_setg.
  - destruct (gp s d); try done. cbn [bnd]. split; [lia|]. by apply kinds_setg.
  - destruct (gp s d); try done. cbn [bnd]. split; [lia|]. by apply kinds_setg.
  - destruct (o =? ro); [|done]. destruct (gp s s0); try done. cbn [bnd]. split; [lia|]. exact Hk.
  - rewrite <- (Hk a) in *. eapply bnd_call; [apply cost_load128|exact Hn|]. intros v n' Hn' _. cbn [bnd]. split; [lia|]. by apply kinds_setx.
  - rewrite <- (Hk a) in *. eapply bnd_call; [apply cost_store128|exact Hn|]. intros v n' Hn' _. cbn [bnd]. split; [lia|done].
  - destruct (frame_get f o) as [[| |]|]; try done. cbn [bnd]. split; [lia|]. by apply kinds_setx.
  - rewrite <- (Hk a) in *. eapply bnd_call; [apply cost_load128|exact Hn|]. intros v n' Hn' _. cbn [bnd]. split; [lia|]. by apply kinds_setx.
Qed.
Lemma icost_pos g i : 0 <= icost g i.
Proof. destruct i; cbn; try done; destruct (g _); done. Qed.
Lemma ccost_pos fk c : forall g, 0 <= ccost fk g c.
Proof. induction c as [|i c IH]; intros g; cbn; [done|]. pose proof (icost_pos g i). specialize (IH (ikind fk g i)). lia. Qed.
Lemma cost_exec a f ro fk c : (forall o v, frame_get f o = Some (C64 v) -> kind_of v = fk o) -> forall s g, kinds s g ->
  costs (exec a f ro c s) (ccost fk g c) (fun _ => True).
Proof.
  intros Hf. induction c as [|i c IH]; intros s g Hk n Hn; [cbn; lia|]. cbn [exec ccost] in *. destruct (supports a (needs i)); [|done].
  pose proof (ccost_pos fk c (ikind fk g i)).
  eapply bnd_call; [by apply cost_exec1|lia|]. intros s' n' Hn' Hk'. eapply bnd_mono; [|eapply IH; [exact Hk'|lia]]. cbn. intros. lia.
Qed.
(** The kinds of the arguments. *)
Definition frame_kind (f : list (Z * cell)) (o : Z) : kind := match frame_get f o with Some (C64 v) => kind_of v | _ => KU end.
Lemma cost_call a c ps : costs (call_asm a c ps) (ccost (frame_kind (fst (layout 0 ps))) (fun _ => KU) c) (fun _ => True).
Proof.
  unfold call_asm. destruct (layout 0 ps) as [f ro]. intros n Hn. cbn [fst] in Hn |- *. eapply bnd_call; [|exact Hn|].
  - apply cost_exec; [|done]. intros o v E. unfold frame_kind. by rewrite E.
  - intros s n' H _. cbn. split; [lia|done].
Qed.
Lemma cost_Put8uint32FastAsm a i o s l : costs (Put8uint32FastAsm a i o s l) 40 (fun _ => True).
Proof.
  intros n Hn. eapply bnd_call; [apply cost_call| |].
  - etransitivity; [|exact Hn]. vm_compute. discriminate.
  - intros r n' H _. destruct r; [|done]. cbn [bnd]. split; [|done]. etransitivity; [|exact H]. apply Z.sub_le_mono_l. vm_compute. discriminate.
Qed.
Lemma cost_Put8uint32DeltaFastAsm a i o p s l : costs (Put8uint32DeltaFastAsm a i o p s l) 40 (fun _ => True).
Proof.
  intros n Hn. eapply bnd_call; [apply cost_call| |].
  - etransitivity; [|exact Hn]. vm_compute. discriminate.
  - intros r n' H _. destruct r; [|done]. cbn [bnd]. split; [|done]. etransitivity; [|exact H]. apply Z.sub_le_mono_l. vm_compute. discriminate.
Qed.
Lemma cost_Get8uint32FastAsm a i o c s l : costs (Get8uint32FastAsm a i o c s l) 40 (fun _ => True).
Proof.
  intros n Hn. eapply bnd_call; [apply cost_call| |].
  - etransitivity; [|exact Hn]. vm_compute. discriminate.
  - intros r n' H _. cbn [bnd]. split; [|done]. etransitivity; [|exact H]. apply Z.sub_le_mono_l. vm_compute. discriminate.
Qed.
Lemma cost_Get8uint32DeltaFastAsm a i o c p s l : costs (Get8uint32DeltaFastAsm a i o c p s l) 40 (fun _ => True).
Proof.
  intros n Hn. eapply bnd_call; [apply cost_call| |].
  - etransitivity; [|exact Hn]. vm_compute. discriminate.
  - intros r n' H _. cbn [bnd]. split; [|done]. etransitivity; [|exact H]. apply Z.sub_le_mono_l. vm_compute. discriminate.
Qed.

(** ** Go code: groups *)
Lemma cost_weaken {A} (p : prog A) c d P : c <= d -> costs p c P -> costs p d P.
Proof. intros Hc Hp n Hn. eapply bnd_mono; [|apply Hp; lia]. intros a n' [? ?]. split; [lia|done]. Qed.
Lemma costs_of {A} (p : prog A) c P : (forall n, c <= n -> bnd p n (fun a n' => n - c <= n' /\ P a)) -> costs p c P.
Proof. done. Qed.
Create HintDb cost.
#[export] Hint Resolve cost_slice_from cost_slice_range cost_check cost_getB cost_setB cost_getW cost_setW cost_makeB
  cost_Put8uint32FastAsm cost_Put8uint32DeltaFastAsm cost_Get8uint32FastAsm cost_Get8uint32DeltaFastAsm : cost.
Ltac cst := first
  [ progress cbv zeta
  | match goal with
    | |- bnd (bind _ _) _ _ => eapply bnd_call; [solve [eauto 1 with cost nocore]|lia|intros ? ? ? _]
    | |- bnd (Ret _) _ _ => cbn [bnd]
    | |- bnd GoPanic _ _ => exact I
    end ].
Lemma bnd_last {A} (p : prog A) c P n (Q : A -> Z -> Prop) : costs p c P -> c <= n -> (forall a n', n - c <= n' -> P a -> Q a n') -> bnd p n Q.
Proof. intros Hp Hn HQ. eapply bnd_mono; [|by apply Hp]. intros a n' [? ?]. by apply HQ. Qed.

Lemma cost_encodeOne x o : costs (encodeOne x o) 4 (fun _ => True).
Proof.
  intros n Hn. unfold encodeOne. cbv zeta. apply bnd_bind. eapply (bnd_mono _ _ (fun _ n' => n - 4 <= n')); [intros u n' H; cbn; lia|].
  repeat case_match; repeat cst; try (eapply bnd_last; [apply cost_setB|lia|]; intros; lia); cbn; lia.
Qed.
Lemma cost_decodeOne b s : costs (decodeOne b s) 4 (fun _ => True).
Proof. intros n Hn. unfold decodeOne. repeat case_match; repeat cst; (lia || (split; [lia|done])). Qed.
#[export] Hint Resolve cost_encodeOne cost_decodeOne : cost.
Lemma cost_Put4uint32Scalar i o : costs (Put4uint32Scalar i o) 20 (fun _ => True).
Proof. intros n Hn. unfold Put4uint32Scalar. repeat cst. split; [lia|done]. Qed.
Lemma cost_Put4uint32DeltaScalar i o p : costs (Put4uint32DeltaScalar i o p) 23 (fun _ => True).
Proof. intros n Hn. unfold Put4uint32DeltaScalar. repeat cst. split; [lia|done]. Qed.
Lemma cost_Get4uint32Scalar i o c : costs (Get4uint32Scalar i o c) 20 (fun _ => True).
Proof. intros n Hn. unfold Get4uint32Scalar. repeat cst. eapply bnd_last; [apply cost_setW|lia|]. intros. split; [lia|done]. Qed.
Lemma cost_Get4uint32DeltaScalar i o c p : costs (Get4uint32DeltaScalar i o c p) 23 (fun _ => True).
Proof. intros n Hn. unfold Get4uint32DeltaScalar. repeat cst. eapply bnd_last; [apply cost_setW|lia|]. intros. split; [lia|done]. Qed.
#[export] Hint Resolve cost_Put4uint32Scalar cost_Put4uint32DeltaScalar cost_Get4uint32Scalar cost_Get4uint32DeltaScalar : cost.
Lemma cost_Put8uint32Scalar i o : costs (Put8uint32Scalar i o) 40 (fun _ => True).
Proof. intros n Hn. unfold Put8uint32Scalar. repeat cst. split; [lia|done]. Qed.
Lemma cost_Put8uint32DeltaScalar i o p : costs (Put8uint32DeltaScalar i o p) 47 (fun _ => True).
Proof. intros n Hn. unfold Put8uint32DeltaScalar. repeat cst. split; [lia|done]. Qed.
Lemma cost_Get8uint32Scalar i o c : costs (Get8uint32Scalar i o c) 40 (fun _ => True).
Proof. intros n Hn. unfold Get8uint32Scalar. repeat cst. eapply bnd_last; [apply cost_Get4uint32Scalar|lia|]. intros. split; [lia|done]. Qed.
Lemma cost_Get8uint32DeltaScalar i o c p : costs (Get8uint32DeltaScalar i o c p) 47 (fun _ => True).
Proof. intros n Hn. unfold Get8uint32DeltaScalar. repeat cst. eapply bnd_last; [apply cost_Get4uint32DeltaScalar|lia|]. intros. split; [lia|done]. Qed.

(** One to four numbers. *)
Definition clip4 (c : Z) : Z := Z.max 0 (Z.min c 4).
Lemma iadd1 a : 0 <= a < 4 -> iadd a 1 = a + 1.
Proof. intros. unfold iadd, i64. rewrite Z.mod_small; lia. Qed.
Lemma cost_PutUint32Scalar i o c : costs (PutUint32Scalar i o c) (5 * clip4 c) (fun _ => True).
Proof.
  intros n Hn. unfold PutUint32Scalar, clip4 in *. destruct (c =? 0) eqn:E0; [cbn; lia|]. cbv zeta. apply bnd_bind.
  set (k := if 4 <? c then 4 else c). assert (Hk : k = Z.min c 4) by (unfold k; destruct (Z.ltb_spec 4 c); lia).
  apply (bnd_while (fun '(i, _, _, _) n' => 0 <= i /\ n - 5 * i <= n' /\ i <= Z.max 0 k)).
  - intros [[[j ctrl] sh] t] n' (H0 & H1 & H2) Hc. apply Z.ltb_lt in Hc. repeat cst. rewrite iadd1 by lia. lia.
  - intros [[[j ctrl] sh] t] n' (H0 & H1 & H2) _. cbn. split; [lia|done].
  - lia.
Qed.
Lemma cost_PutUint32DeltaScalar i o c p : costs (PutUint32DeltaScalar i o c p) (6 * clip4 c) (fun _ => True).
Proof.
  intros n Hn. unfold PutUint32DeltaScalar, clip4 in *. destruct (c =? 0) eqn:E0; [cbn; lia|]. cbv zeta. apply bnd_bind.
  set (k := if 4 <? c then 4 else c). assert (Hk : k = Z.min c 4) by (unfold k; destruct (Z.ltb_spec 4 c); lia).
  apply (bnd_while (fun '(i, _, _, _, _) n' => 0 <= i /\ n - 6 * i <= n' /\ i <= Z.max 0 k)).
  - intros [[[[j ctrl] sh] t] q] n' (H0 & H1 & H2) Hc. apply Z.ltb_lt in Hc. repeat cst. rewrite iadd1 by lia. lia.
  - intros [[[[j ctrl] sh] t] q] n' (H0 & H1 & H2) _. cbn. split; [lia|done].
  - lia.
Qed.
Lemma cost_GetUint32Scalar i o ctrl c : costs (GetUint32Scalar i o ctrl c) (5 * clip4 c) (fun _ => True).
Proof.
  intros n Hn. unfold GetUint32Scalar, clip4 in *. destruct (c =? 0) eqn:E0; [cbn; lia|]. cbv zeta. apply bnd_bind.
  set (k := if 4 <? c then 4 else c). assert (Hk : k = Z.min c 4) by (unfold k; destruct (Z.ltb_spec 4 c); lia).
  apply (bnd_while (fun '(i, _, _) n' => 0 <= i /\ n - 5 * i <= n' /\ i <= Z.max 0 k)).
  - intros [[j sh] t] n' (H0 & H1 & H2) Hc. apply Z.ltb_lt in Hc. repeat cst. rewrite iadd1 by lia. lia.
  - intros [[j sh] t] n' (H0 & H1 & H2) _. cbn. split; [lia|done].
  - lia.
Qed.
Lemma cost_GetUint32DeltaScalar i o ctrl c p : costs (GetUint32DeltaScalar i o ctrl c p) (5 * clip4 c) (fun _ => True).
Proof.
  intros n Hn. unfold GetUint32DeltaScalar, clip4 in *. destruct (c =? 0) eqn:E0; [cbn; lia|]. cbv zeta. apply bnd_bind.
  set (k := if 4 <? c then 4 else c). assert (Hk : k = Z.min c 4) by (unfold k; destruct (Z.ltb_spec 4 c); lia).
  apply (bnd_while (fun '(i, _, _, _) n' => 0 <= i /\ n - 5 * i <= n' /\ i <= Z.max 0 k)).
  - intros [[[j sh] t] q] n' (H0 & H1 & H2) Hc. apply Z.ltb_lt in Hc. repeat cst. rewrite iadd1 by lia. lia.
  - intros [[[j sh] t] q] n' (H0 & H1 & H2) _. cbn. split; [lia|done].
  - lia.
Qed.
