(** * Concurrent execution: every interleaving of memory accesses

    Several computations run on one memory.  A schedule picks, again and again, one
    of them and lets it perform its next memory access (one byte or one uint32; the
    16-byte loads and stores of the vector code are taken apart into these).  This is
    sequential consistency, which the Go memory model guarantees for programs without
    data races; [no_conflict] below is the absence of data races. *)
From stdpp Require Import prelude gmap list.
From Coq Require Import ZArith Lia.
From Verif Require Import GoSem.
Local Open Scope Z_scope.

(** The next access. *)
Definition next {A} (p : prog A) : option event :=
  match p with
  | ReadB b i _ => Some (ERdB b i)
  | WriteB b i _ _ => Some (EWrB b i)
  | ReadW b i _ => Some (ERdW b i)
  | WriteW b i _ _ => Some (EWrW b i)
  | AllocB b _ _ => Some (EAlB b)
  | Ret _ | GoPanic | Fault | BadInstr | Diverge => None
  end.
(** Performing it; a computation that has ended stays as it is. *)
Definition step {A} (p : prog A) (m : mem) : prog A * mem :=
  match p with
  | ReadB b i k => match hget (mb m) b i with Some v => (k v, m) | None => (Fault, m) end
  | WriteB b i v k => match hput (mb m) b i v with Some h => (k, Mem h (mw m)) | None => (Fault, m) end
  | ReadW b i k => match hget (mw m) b i with Some v => (k v, m) | None => (Fault, m) end
  | WriteW b i v k => match hput (mw m) b i v with Some h => (k, Mem (mb m) h) | None => (Fault, m) end
  | AllocB b n k => match mb m !! b with None => (k, Mem (<[b := replicate (Z.to_nat n) 0]> (mb m)) (mw m)) | Some _ => (Fault, m) end
  | _ => (p, m)
  end.
(** How a computation that has ended has ended. *)
Definition ended {A} (p : prog A) : option (res A) :=
  match p with
  | Ret a => Some (Ok a)
  | GoPanic => Some Panicked
  | Fault => Some Faulted
  | BadInstr => Some Illegal
  | Diverge => Some Diverged
  | _ => None
  end.

Definition config (A : Type) : Type := list (prog A) * mem.
Inductive sched {A} : config A -> list nat -> config A -> Prop :=
| sched_nil c : sched c [] c
| sched_cons ps m i p p' m1 is c :
    ps !! i = Some p -> next p <> None -> step p m = (p', m1) -> sched (<[i := p']> ps, m1) is c -> sched (ps, m) (i :: is) c.

(** ** Locations *)
(** The two memories agree where the access takes place. *)
Definition agree (m1 m2 : mem) (e : event) : Prop :=
  match e with
  | ERdB b i | EWrB b i => hget (mb m1) b i = hget (mb m2) b i
  | ERdW b i | EWrW b i => hget (mw m1) b i = hget (mw m2) b i
  | EAlB b => mb m1 !! b = mb m2 !! b
  end.
(** [e] changes something that [e'] accesses. *)
Definition changes (e e' : event) : Prop :=
  match e, e' with
  | EWrB b i, (ERdB b' i' | EWrB b' i') => b = b' /\ i = i'
  | EWrW b i, (ERdW b' i' | EWrW b' i') => b = b' /\ i = i'
  | EWrB b _, EAlB b' => b = b'
  | EAlB b, (ERdB b' _ | EWrB b' _ | EAlB b') => b = b'
  | _, _ => False
  end.
Definition no_conflict (t t' : list event) : Prop := forall e e', e ∈ t -> e' ∈ t' -> ~ changes e e' /\ ~ changes e' e.

Lemma agree_refl m e : agree m m e.
Proof. by destruct e. Qed.
Lemma agree_sym m1 m2 e : agree m1 m2 e -> agree m2 m1 e.
Proof. destruct e; cbn; done. Qed.
Lemma agree_trans m1 m2 m3 e : agree m1 m2 e -> agree m2 m3 e -> agree m1 m3 e.
Proof. destruct e; cbn; congruence. Qed.

Lemma hput_iff h b i v : hput h b i v = None <-> hget h b i = None.
Proof.
  unfold hput, hget. destruct (0 <=? i); [|done]. destruct (h !! b) as [l|]; [|done].
  destruct (Nat.ltb_spec (Z.to_nat i) (length l)) as [H|H].
  - split; [done|]. intros G. apply lookup_ge_None in G. lia.
  - split; [|done]. intros _. by apply lookup_ge_None.
Qed.
Lemma hput_get h b i v h' b' i' : hput h b i v = Some h' ->
  hget h' b' i' = if decide (b = b' /\ i = i') then Some v else hget h b' i'.
Proof.
  unfold hput, hget. destruct (Z.leb_spec 0 i) as [Hi|]; [|done]. destruct (h !! b) as [l|] eqn:E; [|done].
  destruct (Nat.ltb_spec (Z.to_nat i) (length l)) as [H|H]; [|done]. intros [= <-].
  destruct (decide (b = b')) as [<-|Hb].
  - rewrite lookup_insert, E. destruct (Z.leb_spec 0 i'); [|by rewrite decide_False by lia]. destruct (decide (i = i')) as [<-|Hn].
    + rewrite decide_True by done. by apply list_lookup_insert.
    + rewrite decide_False by tauto. apply list_lookup_insert_ne. lia.
  - rewrite lookup_insert_ne by done. by rewrite decide_False by tauto.
Qed.
Lemma hput_block h b i v h' b' : hput h b i v = Some h' -> b <> b' -> h' !! b' = h !! b'.
Proof.
  unfold hput. destruct (0 <=? i); [|done]. destruct (h !! b) as [l|] eqn:E; [|done]. destruct (Nat.ltb _ _); [|done]. intros [= <-] Hb. by apply lookup_insert_ne.
Qed.
Lemma hput_same h1 h2 b i v h1' h2' : hput h1 b i v = Some h1' -> hput h2 b i v = Some h2' -> h1 !! b = h2 !! b -> h1' !! b = h2' !! b.
Proof.
  unfold hput. intros E1 E2 E. rewrite E in E1. destruct (0 <=? i); [|done]. destruct (h2 !! b) as [l|]; [|done]. destruct (Nat.ltb _ _); [|done].
  injection E1 as <-. injection E2 as <-. by rewrite !lookup_insert.
Qed.
Lemma hget_block h1 h2 b i : h1 !! b = h2 !! b -> hget h1 b i = hget h2 b i.
Proof. unfold hget. by intros ->. Qed.

(** A step changes nothing elsewhere. *)
Lemma step_elsewhere {A} (p : prog A) m e e' : next p = Some e -> ~ changes e e' -> agree (snd (step p m)) m e'.
Proof.
  destruct p as [a| | | | |b i k|b i v k|b i k|b i v k|b n k]; cbn; intros [= <-] Hc; try apply agree_refl.
  - destruct (hget _ _ _); apply agree_refl.
  - destruct (hput (mb m) b i v) as [h|] eqn:E; [|apply agree_refl]. destruct e' as [b' i'|b' i'|b' i'|b' i'|b']; cbn in *; try done.
    + rewrite (hput_get _ _ _ _ _ b' i' E). by rewrite decide_False by tauto.
    + rewrite (hput_get _ _ _ _ _ b' i' E). by rewrite decide_False by tauto.
    + by eapply hput_block.
  - destruct (hget _ _ _); apply agree_refl.
  - destruct (hput (mw m) b i v) as [h|] eqn:E; [|apply agree_refl]. destruct e' as [b' i'|b' i'|b' i'|b' i'|b']; cbn in *; try done.
    + rewrite (hput_get _ _ _ _ _ b' i' E). by rewrite decide_False by tauto.
    + rewrite (hput_get _ _ _ _ _ b' i' E). by rewrite decide_False by tauto.
  - destruct (mb m !! b) eqn:E; [apply agree_refl|]. destruct e' as [b' i'|b' i'|b' i'|b' i'|b']; cbn in *; try done.
    + apply hget_block. by apply lookup_insert_ne.
    + apply hget_block. by apply lookup_insert_ne.
    + by apply lookup_insert_ne.
Qed.
(** A step does the same on two memories that agree where it acts. *)
Lemma step_same {A} (p : prog A) m1 m2 e : next p = Some e -> agree m1 m2 e ->
  fst (step p m1) = fst (step p m2) /\ forall e', agree m1 m2 e' -> agree (snd (step p m1)) (snd (step p m2)) e'.
Proof.
  destruct p as [a| | | | |b i k|b i v k|b i k|b i v k|b n k]; cbn [next step]; intros [= <-] Ha; cbn [agree] in Ha.
  - rewrite Ha. clear Ha. destruct (hget _ _ _); cbn [fst snd]; (split; [done|]); intros e' He'; exact He'.
  - destruct (hput (mb m1) b i v) as [h1|] eqn:E1, (hput (mb m2) b i v) as [h2|] eqn:E2; cbn.
    + split; [done|]. intros e' He. destruct e' as [b' i'|b' i'|b' i'|b' i'|b']; cbn in *; try done.
      * rewrite (hput_get _ _ _ _ _ b' i' E1), (hput_get _ _ _ _ _ b' i' E2). by destruct (decide _).
      * rewrite (hput_get _ _ _ _ _ b' i' E1), (hput_get _ _ _ _ _ b' i' E2). by destruct (decide _).
      * destruct (decide (b = b')) as [<-|Hb]; [by eapply hput_same|]. by rewrite (hput_block _ _ _ _ _ b' E1 Hb), (hput_block _ _ _ _ _ b' E2 Hb).
    + exfalso. apply hput_iff in E2. rewrite <- Ha in E2. apply (hput_iff (mb m1) b i v) in E2. congruence.
    + exfalso. apply hput_iff in E1. rewrite Ha in E1. apply (hput_iff (mb m2) b i v) in E1. congruence.
    + done.
  - rewrite Ha. clear Ha. destruct (hget _ _ _); cbn [fst snd]; (split; [done|]); intros e' He'; exact He'.
  - destruct (hput (mw m1) b i v) as [h1|] eqn:E1, (hput (mw m2) b i v) as [h2|] eqn:E2; cbn.
    + split; [done|]. intros e' He. destruct e' as [b' i'|b' i'|b' i'|b' i'|b']; cbn in *; try done.
      * rewrite (hput_get _ _ _ _ _ b' i' E1), (hput_get _ _ _ _ _ b' i' E2). by destruct (decide _).
      * rewrite (hput_get _ _ _ _ _ b' i' E1), (hput_get _ _ _ _ _ b' i' E2). by destruct (decide _).
    + exfalso. apply hput_iff in E2. rewrite <- Ha in E2. apply (hput_iff (mw m1) b i v) in E2. congruence.
    + exfalso. apply hput_iff in E1. rewrite Ha in E1. apply (hput_iff (mw m2) b i v) in E1. congruence.
    + done.
  - rewrite Ha. destruct (mb m2 !! b) eqn:E; cbn; [done|]. split; [done|].
    intros e' He. destruct e' as [b' i'|b' i'|b' i'|b' i'|b']; cbn in *; try done.
    + destruct (decide (b = b')) as [<-|Hb]; [apply hget_block; by rewrite !lookup_insert|]. unfold hget in *. by rewrite !lookup_insert_ne.
    + destruct (decide (b = b')) as [<-|Hb]; [apply hget_block; by rewrite !lookup_insert|]. unfold hget in *. by rewrite !lookup_insert_ne.
    + destruct (decide (b = b')) as [<-|Hb]; [by rewrite !lookup_insert|]. by rewrite !lookup_insert_ne.
Qed.
(** A step of the sequential semantics. *)
Lemma run_step {A} (p : prog A) m e : next p = Some e ->
  result (run p m) = result (run (fst (step p m)) (snd (step p m))) /\ final (run p m) = final (run (fst (step p m)) (snd (step p m))) /\
  trace (run p m) = e :: trace (run (fst (step p m)) (snd (step p m))).
Proof.
  unfold result, final, trace.
  destruct p as [a| | | | |b i k|b i v k|b i k|b i v k|b n k]; cbn; intros [= <-].
  - destruct (hget _ _ _) as [v|]; cbn; [destruct (run (k v) m) as [[? ?] ?]|]; done.
  - destruct (hput _ _ _ _) as [h|]; cbn; [destruct (run k _) as [[? ?] ?]|]; done.
  - destruct (hget _ _ _) as [v|]; cbn; [destruct (run (k v) m) as [[? ?] ?]|]; done.
  - destruct (hput _ _ _ _) as [h|]; cbn; [destruct (run k _) as [[? ?] ?]|]; done.
  - destruct (mb m !! b); cbn; [|destruct (run k _) as [[? ?] ?]]; done.
Qed.
Lemma run_ended {A} (p : prog A) m r : ended p = Some r -> run p m = (r, m, []).
Proof. destruct p; cbn; by intros [= <-]. Qed.
Lemma ended_next {A} (p : prog A) : (exists r, ended p = Some r) \/ (exists e, next p = Some e).
Proof. destruct p; cbn; eauto. Qed.
Lemma trace_nil_ended {A} (p : prog A) m : trace (run p m) = [] -> exists r, ended p = Some r.
Proof. intros H. destruct (ended_next p) as [?|[e He]]; [done|]. destruct (run_step p m e He) as (_ & _ & E). congruence. Qed.

(** ** The theorem *)
Section conc.
Context {A : Type} (ps : list (prog A)) (m : mem).
Hypothesis Hnc : forall i j p q, i <> j -> ps !! i = Some p -> ps !! j = Some q -> no_conflict (trace (run p m)) (trace (run q m)).
(** Thread [i] alone is at [s i]; the shared memory agrees with it wherever it acts. *)
Record inv (c : config A) (s : nat -> mem) : Prop := {
  inv_len : length (fst c) = length ps;
  inv_thread i p q : ps !! i = Some p -> fst c !! i = Some q ->
    result (run p m) = result (run q (s i)) /\ final (run p m) = final (run q (s i)) /\
    (exists d, trace (run p m) = d ++ trace (run q (s i))) /\
    (forall e, e ∈ trace (run p m) -> agree (snd c) (s i) e);
  inv_else e : (forall i p e', ps !! i = Some p -> e' ∈ trace (run p m) -> ~ changes e' e) -> agree (snd c) m e }.
Definition todo (c : config A) (s : nat -> mem) : nat := fold_right Nat.add 0%nat (imap (fun i q => length (trace (run q (s i)))) (fst c)).

Lemma inv_init : inv (ps, m) (fun _ => m).
Proof.
  split; cbn.
  - done.
  - intros i p q E1 E2. rewrite E1 in E2. injection E2 as <-. split; [done|]. split; [done|]. split; [by exists []|]. intros. apply agree_refl.
  - intros. apply agree_refl.
Qed.
Lemma inv_step qs m1 s i q q' m2 : inv (qs, m1) s -> qs !! i = Some q -> next q <> None -> step q m1 = (q', m2) ->
  inv (<[i := q']> qs, m2) (fun j => if decide (j = i) then snd (step q (s i)) else s j) /\
  run (fst (step q (s i))) (snd (step q (s i))) = run q' (snd (step q (s i))).
Proof.
  intros [HL HT HE] Hq Hn Hs. cbn [fst snd] in *. destruct (next q) as [e|] eqn:He; [clear Hn|done].
  assert (Hip : exists p, ps !! i = Some p) by (apply lookup_lt_is_Some; rewrite <- HL; apply lookup_lt_is_Some; by exists q).
  destruct Hip as [p Hp]. destruct (HT i p q Hp Hq) as (R1 & R2 & (d & R3) & R4).
  destruct (run_step q (s i) e He) as (S1 & S2 & S3).
  assert (Hin : e ∈ trace (run p m)) by (rewrite R3, S3; set_solver).
  destruct (step_same q m1 (s i) e He (R4 e Hin)) as [T1 T2]. rewrite Hs in T1, T2. cbn [fst snd] in T1, T2.
  assert (Hel : forall e', ~ changes e e' -> agree m2 m1 e'). { intros e' Hc. pose proof (step_elsewhere q m1 e e' He Hc) as G. by rewrite Hs in G. }
  split; [|by rewrite T1]. split; cbn [fst snd].
  - by rewrite insert_length.
  - intros j p' q'' Hp' Hq'. destruct (decide (j = i)) as [->|Hj].
    + rewrite Hp in Hp'. injection Hp' as <-. rewrite list_lookup_insert in Hq' by (by eapply lookup_lt_Some). injection Hq' as <-.
      rewrite <- T1 in S1, S2, S3. rewrite <- S1, <- S2. split; [done|]. split; [done|]. split; [exists (d ++ [e]); rewrite <- app_assoc; cbn; by rewrite <- S3|].
      intros e' He'. apply T2, R4, He'.
    + rewrite list_lookup_insert_ne in Hq' by done. destruct (HT j p' q'' Hp' Hq') as (U1 & U2 & U3 & U4). split; [done|]. split; [done|]. split; [done|].
      intros e' He'. eapply agree_trans; [|by apply U4]. apply Hel. by apply (Hnc i j p p' (not_eq_sym Hj) Hp Hp' e e' Hin He').
  - intros e' He'. eapply agree_trans; [|by apply HE]. apply Hel. by eapply He'.
Qed.
Lemma todo_step qs m1 s i q q' m2 : qs !! i = Some q -> next q <> None -> inv (qs, m1) s -> step q m1 = (q', m2) ->
  todo (qs, m1) s = S (todo (<[i := q']> qs, m2) (fun j => if decide (j = i) then snd (step q (s i)) else s j)).
Proof.
  intros Hq Hn HI Hs. destruct (inv_step _ _ _ _ _ _ _ HI Hq Hn Hs) as [_ E]. destruct (next q) as [e|] eqn:He; [|done].
  destruct (run_step q (s i) e He) as (_ & _ & S3). rewrite E in S3. unfold todo. cbn [fst]. set (s' := fun j => if decide (j = i) then snd (step q (s i)) else s j).
  assert (G : forall (l : list (prog A)) k, (forall j, (k <= j)%nat -> j <> i -> s' j = s j) -> forall j, (k + j)%nat = i -> l !! j = Some q ->
    fold_right Nat.add 0%nat (imap (fun x q => length (trace (run q (s (k + x)%nat)))) l) =
    S (fold_right Nat.add 0%nat (imap (fun x q => length (trace (run q (s' (k + x)%nat)))) (<[j := q']> l)))).
  { induction l as [|a l IH]; intros k Hk j Hj Hl; [done|]. destruct j as [|j]; cbn [lookup list_lookup insert list_insert imap] in *.
    - injection Hl as ->. rewrite Nat.add_0_r in Hj. subst k. cbn. rewrite Nat.add_0_r. unfold s' at 1. rewrite decide_True by done. rewrite S3. cbn [length]. rewrite Nat.add_succ_l. do 2 f_equal.
      f_equal. apply imap_ext. intros x y _. cbn. unfold s'. rewrite decide_False by lia. done.
    - cbn. rewrite Nat.add_0_r. rewrite (Hk k) by lia. rewrite <- Nat.add_succ_r. f_equal.
      transitivity (fold_right Nat.add 0%nat (imap (fun x q => length (trace (run q (s (S k + x)%nat)))) l)).
      { f_equal. apply imap_ext. intros x y _. cbn. do 5 f_equal. lia. }
      rewrite (IH (S k) ltac:(intros; apply Hk; lia) j ltac:(lia) Hl). do 2 f_equal. apply imap_ext. intros x y _. cbn. do 5 f_equal. lia. }
  apply (G qs 0%nat); [|done|done]. intros j _ Hj. unfold s'. by rewrite decide_False.
Qed.
Lemma inv_sched c is c' s : sched c is c' -> inv c s -> exists s', inv c' s' /\ todo c s = (length is + todo c' s')%nat.
Proof.
  intros H. revert s. induction H as [c|qs m1 i q q' m2 is c Hq Hn Hs _ IH]; intros s HI; [by exists s|].
  destruct (inv_step _ _ _ _ _ _ _ HI Hq Hn Hs) as [HI' _]. pose proof (todo_step _ _ _ _ _ _ _ Hq Hn HI Hs) as E.
  destruct (IH _ HI') as (s' & HI'' & E'). exists s'. split; [done|]. cbn [length]. lia.
Qed.

(** Total number of accesses. *)
Definition work : nat := fold_right Nat.add 0%nat (map (fun p => length (trace (run p m))) ps).
Lemma work_todo : todo (ps, m) (fun _ => m) = work.
Proof. unfold todo, work. cbn. f_equal. exact (imap_const (fun p => length (trace (run p m))) ps). Qed.

(** Every schedule of [work] steps ends all threads; no longer schedule exists; a
    shorter one can be continued, with any thread that has not ended. *)
Theorem conc_progress is qs m' : sched (ps, m) is (qs, m') ->
  (length is <= work)%nat /\
  (length is = work <-> forall i q, qs !! i = Some q -> exists r, ended q = Some r) /\
  (forall i q, qs !! i = Some q -> ended q = None -> exists c, sched (qs, m') [i] c).
Proof.
  intros H. destruct (inv_sched _ _ _ _ H inv_init) as (s & HI & E). rewrite work_todo in E. split; [lia|]. split.
  - assert (G : todo (qs, m') s = 0%nat <-> forall i q, qs !! i = Some q -> trace (run q (s i)) = []).
    { unfold todo. cbn. clear. revert s. induction qs as [|q qs IH]; intros s; [split; [done|cbn; done]|]. cbn. split.
      - intros Hz [|i] q' Hq; cbn in Hq; [injection Hq as <-; apply nil_length_inv; lia|]. specialize (IH (fun j => s (S j))). apply IH; [|done].
        clear IH. match type of Hz with (_ + ?t)%nat = _ => change (t = 0%nat) end. lia.
      - intros Hz. rewrite (Hz 0%nat q eq_refl). cbn. apply (IH (fun j => s (S j))). intros i q' Hq. by apply (Hz (S i)). }
    split.
    + intros El i q Hq. eapply trace_nil_ended, G; [lia|done].
    + intros Hall. assert (Hz : todo (qs, m') s = 0%nat) by (apply G; intros i q Hq; destruct (Hall i q Hq) as [r Hr]; by rewrite (run_ended q _ r Hr)). lia.
  - intros i q Hq He. destruct (ended_next q) as [[r ?]|[e Hn]]; [congruence|]. destruct (step q m') as [q' m''] eqn:Es. eexists. econstructor; [done|congruence|done|constructor].
Qed.
(** Whatever the schedule, a thread that has ended has ended as it does alone, and
    when all have ended, memory holds everywhere what the thread that works there
    leaves behind alone, and is unchanged where no thread stores. *)
Theorem conc_results is qs m' : sched (ps, m) is (qs, m') ->
  forall i p q r, ps !! i = Some p -> qs !! i = Some q -> ended q = Some r ->
    r = result (run p m) /\ forall e, e ∈ trace (run p m) -> agree m' (final (run p m)) e.
Proof.
  intros H i p q r Hp Hq Hr. destruct (inv_sched _ _ _ _ H inv_init) as (s & HI & _). destruct HI as [_ HT _]. destruct (HT i p q Hp Hq) as (R1 & R2 & _ & R4).
  rewrite (run_ended q _ r Hr) in R1, R2. split; [done|]. intros e He. rewrite R2. by apply R4.
Qed.
Theorem conc_elsewhere is qs m' : sched (ps, m) is (qs, m') ->
  forall e, (forall i p e', ps !! i = Some p -> e' ∈ trace (run p m) -> ~ changes e' e) -> agree m' m e.
Proof. intros H e He. destruct (inv_sched _ _ _ _ H inv_init) as (s & HI & _). by apply HI. Qed.
(** No thread is lost. *)
Theorem conc_threads is qs m' : sched (ps, m) is (qs, m') -> length qs = length ps.
Proof. intros H. destruct (inv_sched _ _ _ _ H inv_init) as (s & HI & _). apply HI. Qed.
End conc.
