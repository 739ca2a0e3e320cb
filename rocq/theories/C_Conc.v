(** * Concurrent calls: C32 *)
From stdpp Require Import prelude gmap list.
From Coq Require Import ZArith Lia.
From Verif Require Import Spec SpecLemmas GoSem Shared Asm Wp Writer Reader ReaderProof WriterProof WriterProof2 Api ApiLemmas Witness C_Writer C_Reader C_Group8 C_Compose Conc.
Local Open Scope Z_scope.

(** Calls of the stream API: a writer allocates [B], a reader stores into out. *)
Inductive call :=
| CWrite (w : writer) (B : nat) (inp : slice) (prev : option Z)
| CRead (r : reader) (n : Z) (st out : slice) (prev : option Z).
Definition read_prev (r : reader) (n : Z) (st out : slice) (prev : option Z) : prog unit :=
  match prev with None => read r n st out | Some p => read_delta r n st out p end.
Definition exec (c : call) : prog (option slice) :=
  match c with
  | CWrite w B inp prev => let! st := write_prev w B inp prev in Ret (Some st)
  | CRead r n st out prev => read_prev r n st out prev ;;; Ret None
  end.
Definition read_value (prev : option Z) (n : nat) (S : list Z) : list Z :=
  match prev with None => decode_stream n S | Some p => decode_stream_delta n S p end.

(** What each call needs for itself. *)
Definition good (m : mem) (c : call) : Prop :=
  match c with
  | CWrite w B inp prev => validW m inp /\ mb m !! B = None /\ prev_ok prev
  | CRead r n st out prev => validB m st /\ validW m out /\ 0 <= n <= s_len out /\ well_formed (Z.to_nat n) (bytes m st) /\ room r n st m /\ prev_ok prev
  end.
(** Elements [0..k) of [s] and [0..k') of [s'] are different. *)
Definition disjoint_parts (s : slice) (k : Z) (s' : slice) (k' : Z) : Prop :=
  s_blk s <> s_blk s' \/ s_off s + k <= s_off s' \/ s_off s' + k' <= s_off s.
(** Disjoint outputs, and no output is another call's input. *)
Definition apart (c c' : call) : Prop :=
  match c, c' with
  | CWrite _ B _ _, CWrite _ B' _ _ => B <> B'
  | CWrite _ _ inp _, CRead _ n _ out _ | CRead _ n _ out _, CWrite _ _ inp _ => disjoint_parts inp (s_len inp) out n
  | CRead _ n _ out _, CRead _ n' _ out' _ => disjoint_parts out n out' n'
  end.

(** ** Each call alone *)
Lemma accesses_bind_ret {A B} (p : prog A) (f : A -> B) m v m' F : returns p m v m' -> accesses p m F ->
  returns (bind p (fun a => Ret (f a))) m (f v) m' /\ accesses (bind p (fun a => Ret (f a))) m F.
Proof.
  intros [R1 R2] Ha. unfold returns, accesses. rewrite run_bind, R1. unfold result, final, trace in *. cbn. split; [done|]. by rewrite app_nil_r.
Qed.
Definition may (m : mem) (c : call) : event -> Prop :=
  match c with
  | CWrite w B inp prev => writer_may B (wN (to_code prev (words m inp))) inp
  | CRead r n st out prev => reader_may st (reach r n (bytes m st)) out n
  end.
Lemma call_alone m c : typed m -> good m c ->
  accesses (exec c) m (may m c) /\
  match c with
  | CWrite w B inp prev => let X := to_code prev (words m inp) in returns (exec c) m (Some (wret B X)) (wmem m B X)
  | CRead r n st out prev => returns (exec c) m None (rmem m out (read_value prev (Z.to_nat n) (bytes m st)))
  end.
Proof.
  intros Ht. destruct c as [w B inp prev|r n st out prev]; cbn [good exec may].
  - intros (Hv & Hf & Hp). assert (G : let X := to_code prev (words m inp) in returns (write_prev w B inp prev) m (wret B X) (wmem m B X) /\ accesses (write_prev w B inp prev) m (writer_may B (wN X) inp)).
    { destruct prev as [p|]; [by apply write_delta_run|by apply write_run]. }
    destruct G as [G1 G2]. destruct (accesses_bind_ret _ Some _ _ _ _ G1 G2). done.
  - intros (Hs & Ho & Hn & Hw & Hr & Hp).
    assert (G : returns (read_prev r n st out prev) m tt (rmem m out (read_value prev (Z.to_nat n) (bytes m st))) /\ accesses (read_prev r n st out prev) m (reader_may st (reach r n (bytes m st)) out n)).
    { destruct prev as [p|]; [by apply read_delta_run|by apply read_run]. }
    destruct G as [G1 G2]. destruct (accesses_bind_ret _ (fun _ => @None slice) _ _ _ _ G1 G2). done.
Qed.
Lemma apart_sym c c' : apart c c' -> apart c' c.
Proof. destruct c, c'; cbn; unfold disjoint_parts; lia. Qed.
Lemma apart_changes m c c' e e' : good m c -> good m c' -> apart c c' -> may m c e -> may m c' e' -> ~ changes e e'.
Proof.
  intros Hg Hg' Ha He He' Hc.
  assert (Live : forall r n st m b i, room r n st m -> validB m st -> b = s_blk st /\ within st (reach r n (bytes m st)) i -> mb m !! b <> None).
  { intros r n st m0 b i Hr [(H1 & _) _] [-> Hw] E. unfold room, within in *. rewrite E in Hr. cbn in Hr. lia. }
  destruct c as [w B inp prev|r n st out prev], c' as [w' B' inp' prev'|r' n' st' out' prev']; cbn in Hg, Hg', Ha.
  - destruct e, e'; cbn in *; intuition congruence.
  - destruct Hg' as (Hs & Ho & Hn & Hw & Hr & Hp), Hg as (Hv & Hf & _).
    destruct e as [b i|b i|b i|b i|b], e' as [b' i'|b' i'|b' i'|b' i'|b']; cbn in *; try done.
    + destruct He as [-> _], Hc as [-> ->]. by eapply Live in He'.
    + subst. by eapply Live in He'.
  - destruct Hg as (Hs & Ho & Hn & Hw & Hr & Hp), Hg' as (Hv & Hf & _).
    destruct e as [b i|b i|b i|b i|b], e' as [b' i'|b' i'|b' i'|b' i'|b']; cbn in *; try done.
    destruct He as [-> He], He' as [-> He'], Hc as [Hc ->]. unfold within, disjoint_parts in *. intuition lia.
  - destruct e as [b i|b i|b i|b i|b], e' as [b' i'|b' i'|b' i'|b' i'|b']; cbn in *; try done;
      destruct He as [-> He], He' as [-> He'], Hc as [Hc ->]; unfold within, disjoint_parts in *; intuition lia.
Qed.

(** ** Sequential facts about locations *)
Lemma run_elsewhere {A} (p : prog A) m e : (forall e', e' ∈ trace (run p m) -> ~ changes e' e) -> agree (final (run p m)) m e.
Proof.
  remember (trace (run p m)) as t eqn:Et. revert p m Et. induction t as [|e0 t IH]; intros p m Et Hc.
  - destruct (trace_nil_ended p m (eq_sym Et)) as [r Hr]. rewrite (run_ended _ _ _ Hr). apply agree_refl.
  - destruct (ended_next p) as [[r Hr]|[e1 He]]; [by rewrite (run_ended _ _ _ Hr) in Et|].
    destruct (run_step p m e1 He) as (_ & -> & E). rewrite E in Et. injection Et as -> Et.
    eapply agree_trans; [apply IH; [exact Et|set_solver]|]. eapply step_elsewhere; [exact He|set_solver].
Qed.
Lemma run_allocates {A} (p : prog A) m b : mb m !! b = None -> mb (final (run p m)) !! b <> None -> EAlB b ∈ trace (run p m).
Proof.
  remember (trace (run p m)) as t eqn:Et. revert p m Et. induction t as [|e0 t IH]; intros p m Et H0 H1.
  - destruct (trace_nil_ended p m (eq_sym Et)) as [r Hr]. by rewrite (run_ended _ _ _ Hr) in H1.
  - destruct (ended_next p) as [[r Hr]|[e1 He]]; [by rewrite (run_ended _ _ _ Hr) in Et|].
    destruct (run_step p m e1 He) as (_ & E2 & E). rewrite E in Et. injection Et as -> Et. rewrite E2 in H1.
    destruct (mb (snd (step p m)) !! b) eqn:Eb; [|right; eapply IH; [exact Et|done|done]].
    assert (Hch : ~ ~ changes e1 (EAlB b)). { intros Hn. pose proof (step_elsewhere p m e1 (EAlB b) He Hn) as Ha. cbn in Ha. congruence. }
    destruct e1 as [b1 i1|b1 i1|b1 i1|b1 i1|b1]; cbn in Hch; try tauto.
    + assert (b1 = b) as -> by (destruct (decide (b1 = b)); [done|tauto]). exfalso. destruct p as [a| | | | |? ? k|? ? v k|? ? k|? ? v k|? n k]; cbn in He; try done. injection He as -> ->.
      cbn in Eb. destruct (hput (mb m) b i1 v) as [h|] eqn:Ep; [|cbn in Eb; congruence]. unfold hput in Ep. rewrite H0 in Ep. by destruct (0 <=? i1).
    + assert (b1 = b) as -> by (destruct (decide (b1 = b)); [done|tauto]). left.
Qed.
Lemma changes_same_cell e e' m1 m2 : changes e e' -> (forall b, e' <> EAlB b) -> agree m1 m2 e -> agree m1 m2 e'.
Proof.
  destruct e as [b i|b i|b i|b i|b], e' as [b' i'|b' i'|b' i'|b' i'|b']; cbn; intros Hc Hn; try done; try (by destruct (Hn b')); try (destruct Hc; subst; done).
  - subst. apply hget_block.
  - subst. apply hget_block.
Qed.
Lemma contents_lookup h s k : 0 <= s_off s -> contents h s !! k = if decide (Z.of_nat k < s_len s) then hget h (s_blk s) (s_off s + Z.of_nat k) else None.
Proof.
  intros Ho. unfold contents. destruct (decide _) as [H|H].
  - rewrite lookup_take, lookup_drop by lia. unfold hget. destruct (Z.leb_spec 0 (s_off s + Z.of_nat k)); [|lia]. replace (Z.to_nat (s_off s + Z.of_nat k)) with (Z.to_nat (s_off s) + k)%nat by lia.
    by destruct (h !! s_blk s).
  - apply lookup_ge_None. rewrite take_length. lia.
Qed.

(** ** C32 *)
Section C32.
Variables (cs : list call) (m : mem).
Hypotheses (Ht : typed m) (Hg : Forall (good m) cs).
Hypothesis Ha : forall i j c c', i <> j -> cs !! i = Some c -> cs !! j = Some c' -> apart c c'.
Lemma calls_no_conflict i j p q : i <> j -> (exec <$> cs) !! i = Some p -> (exec <$> cs) !! j = Some q -> no_conflict (trace (run p m)) (trace (run q m)).
Proof.
  intros Hij Hp Hq. rewrite list_lookup_fmap in Hp, Hq. destruct (cs !! i) as [c|] eqn:Ec; [|done]. destruct (cs !! j) as [c'|] eqn:Ec'; [|done].
  injection Hp as <-. injection Hq as <-. pose proof (Forall_lookup_1 _ _ _ _ Hg Ec) as Gc. pose proof (Forall_lookup_1 _ _ _ _ Hg Ec') as Gc'.
  destruct (call_alone m c Ht Gc) as [A1 _], (call_alone m c' Ht Gc') as [A2 _]. pose proof (Ha i j c c' Hij Ec Ec') as Hap. intros e e' He He'.
  eapply Forall_forall in A1; [|exact He]. eapply Forall_forall in A2; [|exact He']. split.
  - eapply apart_changes; [exact Gc|exact Gc'|done|done|done].
  - eapply apart_changes; [exact Gc'|exact Gc|by apply apart_sym|done|done].
Qed.
(** Where only thread [i] may store, memory is what it leaves behind alone. *)
Lemma calls_cell is qs m' i c q r e' : sched (exec <$> cs, m) is (qs, m') -> cs !! i = Some c -> qs !! i = Some q -> ended q = Some r ->
  (forall b, e' <> EAlB b) -> (forall j c' e, j <> i -> cs !! j = Some c' -> may m c' e -> ~ changes e e') -> agree m' (final (run (exec c) m)) e'.
Proof.
  intros Hs Ec Eq Er Hb Ho. assert (Ep : (exec <$> cs) !! i = Some (exec c)) by (by rewrite list_lookup_fmap, Ec).
  destruct (conc_results _ _ calls_no_conflict _ _ _ Hs i _ _ _ Ep Eq Er) as [_ Hin].
  assert (Hd : (exists e, e ∈ trace (run (exec c) m) /\ changes e e') \/ forall e, e ∈ trace (run (exec c) m) -> ~ changes e e').
  { assert (Hdec : forall e, Decision (changes e e')) by (intros e; destruct e, e'; cbn; apply _).
    destruct (decide (Exists (fun e => changes e e') (trace (run (exec c) m)))) as [H|H].
    - left. by apply Exists_exists in H.
    - right. intros e He Hc. apply H, Exists_exists. by exists e. }
  destruct Hd as [(e & He & Hc)|Hn].
  - eapply changes_same_cell; [exact Hc|done|]. by apply Hin.
  - eapply agree_trans; [|apply agree_sym, run_elsewhere, Hn]. eapply (conc_elsewhere _ _ calls_no_conflict _ _ _ Hs). intros j p e Hj He.
    rewrite list_lookup_fmap in Hj. destruct (cs !! j) as [c'|] eqn:Ec'; [|done]. injection Hj as <-. destruct (decide (j = i)) as [->|Hji].
    + rewrite Ec in Ec'. injection Ec' as <-. by apply Hn.
    + destruct (call_alone m c' Ht (Forall_lookup_1 _ _ _ _ Hg Ec')) as [A1 _]. eapply Forall_forall in A1; [|exact He]. by eapply Ho.
Qed.
End C32.

(** Calls that share inputs but have disjoint outputs, under any schedule.  A call
    that has ended has returned, never panicked or faulted; a writer's slice holds the
    stream of its numbers, a reader's out[0:n] the numbers of its stream -- also while
    the other calls are still running. *)
Theorem C32_results : forall cs m, typed m -> Forall (good m) cs ->
  (forall i j c c', i <> j -> cs !! i = Some c -> cs !! j = Some c' -> apart c c') ->
  forall is qs m', sched (exec <$> cs, m) is (qs, m') ->
  length qs = length cs /\
  forall i c q o, cs !! i = Some c -> qs !! i = Some q -> ended q = Some o ->
    match c with
    | CWrite w B inp prev => exists st, o = Ok (Some st) /\ s_blk st = B /\ bytes m' st = stream_of (to_code prev (words m inp))
    | CRead r n st out prev => o = Ok None /\ take (Z.to_nat n) (words m' out) = read_value prev (Z.to_nat n) (bytes m st)
    end.
Proof.
  intros cs m Ht Hg Ha is qs m' Hs. pose proof (calls_no_conflict cs m Ht Hg Ha) as Hnc. split.
  { rewrite (conc_threads _ _ Hnc _ _ _ Hs). apply fmap_length. }
  intros i c q o Ec Eq Eo. assert (Ep : (exec <$> cs) !! i = Some (exec c)) by (by rewrite list_lookup_fmap, Ec).
  destruct (conc_results _ _ Hnc _ _ _ Hs i _ _ _ Ep Eq Eo) as [-> Hin]. pose proof (Forall_lookup_1 _ _ _ _ Hg Ec) as Gc.
  destruct (call_alone m c Ht Gc) as [A R]. pose proof (calls_cell cs m Ht Hg Ha is qs m' i c q) as Cell. destruct c as [w B inp prev|r n st out prev]; cbv zeta in R; destruct R as [R1 R2].
  - set (X := to_code prev (words m inp)) in *. exists (wret B X). split; [done|]. split; [done|]. rewrite <- (wmem_bytes m B X). rewrite <- R2.
    destruct Gc as (_ & Hf & _). assert (HB : EAlB B ∈ trace (run (exec (CWrite w B inp prev)) m)). { apply run_allocates; [done|]. rewrite R2. cbn. by rewrite lookup_insert. }
    specialize (Hin _ HB). cbn in Hin. unfold bytes, contents. change (s_blk (wret B X)) with B. by rewrite Hin.
  - split; [done|]. destruct Gc as (Hst & Ho & Hn & Hw & Hr & Hp). set (D := read_value prev (Z.to_nat n) (bytes m st)) in *.
    assert (LD : zlen D = n) by (unfold D, read_value; destruct prev as [p|]; [apply (dec_delta_zlen m st out n Hn Hw p)|apply (dec_zlen m st out n Hn Hw)]).
    rewrite <- (rmem_take m out D n (proj1 Ho) LD ltac:(lia)), <- R2. destruct Ho as [(O1 & O2 & O3) _].
    apply list_eq. intros k. destruct (decide (k < Z.to_nat n)%nat) as [Hk|Hk]; [|rewrite !lookup_ge_None_2; [done|rewrite take_length; lia..]].
    rewrite !lookup_take by done. unfold words. rewrite !contents_lookup by done. rewrite !decide_True by lia.
    apply (Cell (result (run (exec (CRead r n st out prev)) m)) (ERdW (s_blk out) (s_off out + Z.of_nat k)) Hs Ec Eq Eo); [done|].
    intros j c' e Hj Ec' He Hc. pose proof (Ha j i c' _ Hj Ec' Ec) as Hap.
    destruct e as [b0 i0|b0 i0|b0 i0|b0 i0|b0]; cbn in Hc; try done. destruct Hc as [-> ->].
    destruct c' as [w' B' inp' prev'|r' n' st' out' prev']; cbn in He, Hap; [done|]. destruct He as [E He]. unfold within, disjoint_parts in *. intuition lia.
Qed.
(** Whatever no reader was asked to store into is unchanged: uint32 elements outside
    all out[0:n], byte allocations that no writer created. *)
Theorem C32_frame : forall cs m, typed m -> Forall (good m) cs ->
  (forall i j c c', i <> j -> cs !! i = Some c -> cs !! j = Some c' -> apart c c') ->
  forall is qs m', sched (exec <$> cs, m) is (qs, m') ->
  (forall b i, (forall r n st out prev, CRead r n st out prev ∈ cs -> ~ (b = s_blk out /\ within out n i)) -> hget (mw m') b i = hget (mw m) b i) /\
  (forall b, (forall w inp prev, CWrite w b inp prev ∉ cs) -> mb m' !! b = mb m !! b).
Proof.
  intros cs m Ht Hg Ha is qs m' Hs. pose proof (calls_no_conflict cs m Ht Hg Ha) as Hnc. pose proof (conc_elsewhere _ _ Hnc _ _ _ Hs) as He.
  assert (Hm : forall i p e, (exec <$> cs) !! i = Some p -> e ∈ trace (run p m) -> exists c, c ∈ cs /\ may m c e).
  { intros i p e Hp Hin. rewrite list_lookup_fmap in Hp. destruct (cs !! i) as [c|] eqn:Ec; [|done]. injection Hp as <-. exists c. split; [by eapply elem_of_list_lookup_2|].
    destruct (call_alone m c Ht (Forall_lookup_1 _ _ _ _ Hg Ec)) as [A1 _]. by eapply Forall_forall in A1. }
  split.
  - intros b i Hno. apply (He (ERdW b i)). intros j p e Hp Hin Hc. destruct (Hm j p e Hp Hin) as (c & Hcs & Hmay).
    destruct e as [b0 i0|b0 i0|b0 i0|b0 i0|b0]; cbn in Hc; try done. destruct Hc as [-> ->]. destruct c as [w B inp prev|r n st out prev]; cbn in Hmay; [done|]. by eapply Hno.
  - intros b Hno. apply (He (EAlB b)). intros j p e Hp Hin Hc. destruct (Hm j p e Hp Hin) as (c & Hcs & Hmay).
    destruct c as [w B inp prev|r n st out prev]; destruct e as [b0 i0|b0 i0|b0 i0|b0 i0|b0]; cbn in Hc, Hmay; try done; subst.
    + destruct Hmay as [-> _]. by eapply Hno.
    + by eapply Hno.
Qed.
(** Every schedule can be continued until all calls have ended, and no schedule is
    longer than the sum of the numbers of accesses the calls make alone. *)
Theorem C32_progress : forall cs m, typed m -> Forall (good m) cs ->
  (forall i j c c', i <> j -> cs !! i = Some c -> cs !! j = Some c' -> apart c c') ->
  exists total : nat, forall is qs m', sched (exec <$> cs, m) is (qs, m') ->
  (length is <= total)%nat /\
  (length is = total <-> forall i q, qs !! i = Some q -> exists o, ended q = Some o) /\
  (forall i q, qs !! i = Some q -> ended q = None -> exists c, sched (qs, m') [i] c).
Proof.
  intros cs m Ht Hg Ha. exists (work (exec <$> cs) m). intros is qs m' Hs. exact (conc_progress _ _ (calls_no_conflict cs m Ht Hg Ha) _ _ _ Hs).
Qed.
(** No data races: no two calls access the same location, one of them storing. *)
Theorem C32_no_races : forall cs m, typed m -> Forall (good m) cs ->
  (forall i j c c', i <> j -> cs !! i = Some c -> cs !! j = Some c' -> apart c c') ->
  forall i j c c', i <> j -> cs !! i = Some c -> cs !! j = Some c' -> no_conflict (trace (run (exec c) m)) (trace (run (exec c') m)).
Proof.
  intros cs m Ht Hg Ha i j c c' Hij Ec Ec'. eapply (calls_no_conflict cs m Ht Hg Ha i j); [done|by rewrite list_lookup_fmap, Ec|by rewrite list_lookup_fmap, Ec'].
Qed.

(** Two readers share a stream, two writers share an array; strict alternation. *)
Definition c32_mem : mem := Mem {[ 3%nat := stream_of (take 20 ex_nums) ]} (mw ex_mem).
Definition c32_st : slice := Slice 3 0 48 48.
Definition c32_calls : list call :=
  [CRead (RDispatch (AMD64 true true)) 20 c32_st (Slice 1 0 20 20) None; CRead RScalar 20 c32_st (Slice 1 20 25 40) (Some 7);
   CWrite WFast 8 ex_in None; CWrite WScalar 9 ex_in (Some 5)].
(** Round robin. *)
Fixpoint robin {A} (n : nat) (i : nat) (ps : list (prog A)) (m : mem) : list (prog A) * mem :=
  match n with
  | O => (ps, m)
  | S n' => match ps !! i with
            | Some p => let '(p', m') := step p m in robin n' (S i) (<[i := p']> ps) m'
            | None => robin n' 0 ps m
            end
  end.
Example C32_example :
  Forall (good c32_mem) c32_calls /\
  (forall i j c c', i <> j -> c32_calls !! i = Some c -> c32_calls !! j = Some c' -> apart c c') /\
  let '(qs, m') := robin 5000 0 (exec <$> c32_calls) c32_mem in
  map ended qs = [Some (Ok None); Some (Ok None); Some (Ok (Some (Slice 8 0 83 158))); Some (Ok (Some (Slice 9 0 97 158)))] /\
  words m' (Slice 1 0 20 20) = take 20 ex_nums.
Proof.
  split; [|split].
  - assert (L : length (stream_of (take 20 ex_nums)) = 48%nat) by (by vm_compute).
    assert (V : validB c32_mem c32_st) by fits.
    assert (W : well_formed (Z.to_nat 20) (bytes c32_mem c32_st)).
    { split; [|vm_compute; lia]. vm_compute. repeat constructor; discriminate. }
    repeat constructor; try (by apply ex_in_valid); try done; try fits; try (vm_compute; intuition discriminate).
  - intros [|[|[|[|i]]]] [|[|[|[|j]]]] c c' Hij Hc Hc'; cbn in Hc, Hc'; try done; injection Hc as <-; injection Hc' as <-; cbn; unfold disjoint_parts; cbn; lia.
  - vm_compute. done.
Qed.

(** ** C39: reading a stream while the rest of its buffer is being filled *)
(** An encoder that stores into [out'[0:k]] while a reader reads the stream [st]. *)
Theorem C39_no_race_partial : forall A (p : prog A) inp' n' out' k m r n st out prev, typed m -> good m (CRead r n st out prev) ->
  accesses p m (encoder_may inp' n' out' k) ->
  disjoint_parts st (reach r n (bytes m st)) out' k -> disjoint_parts inp' n' out n ->
  no_conflict (trace (run (exec (CRead r n st out prev)) m)) (trace (run p m)).
Proof.
  intros A p inp' n' out' k m r n st out prev Ht Hg Hp H1 H2 e e' He He'. destruct (call_alone m _ Ht Hg) as [Ha _].
  eapply Forall_forall in Ha; [|exact He]. eapply Forall_forall in Hp; [|exact He']. cbn [may] in Ha. unfold disjoint_parts in *.
  destruct e as [b i|b i|b i|b i|b], e' as [b' i'|b' i'|b' i'|b' i'|b']; cbn in *; try done; unfold within in *; intuition lia.
Qed.
(** The scalar readers need no gap; the SIMD readers need one of at most 3 bytes. *)
Theorem C39_gap_partial : forall r n st out prev m, typed m -> good m (CRead r n st out prev) ->
  reach r n (bytes m st) <= s_len st + (if is_simd r then 3 else 0).
Proof.
  intros r n st out prev m Ht (Hs & Ho & Hn & (_ & _ & Hw) & _). unfold reach. pose proof (overread_range n). pose proof (contents_length _ _ (proj1 Hs)) as L.
  unfold bytes in *. destruct Hs as [(? & ? & ?) _]. destruct (is_simd r); lia.
Qed.
(** Without the gap there is a data race, although the slices are disjoint: ReadAllFast
    reads the bytes that Put8uint32 is storing. *)
Theorem C39_refuted : exists n st out inp' out' m, typed m /\ good m (CRead (RFast true) n st out None) /\
  validW m inp' /\ validB m out' /\ disjoint_parts st (s_cap st) out' (s_cap out') /\
  exists e, EWrB (s_blk out') e ∈ trace (run (Encode.Put8uint32Scalar inp' out') m) /\ ERdB (s_blk out') e ∈ trace (run (ReadAllFast (AMD64 true true) n st out) m).
Proof.
  exists 17, c12_st, ex_out, ex_in, (Slice 3 22 40 40), (c12_mem 60).
  split; [apply c12_typed|]. split; [|split; [fits|split; [fits|split; [right; left; vm_compute; discriminate|]]]].
  - split; [fits|]. split; [fits|]. split; [vm_compute; intuition discriminate|]. split; [split; [apply (typed_bytes _ _ (c12_typed 60))|vm_compute; lia]|]. split; [|done]. vm_compute. discriminate.
  - exists 22. split; apply elem_of_list_In; vm_compute; repeat (try (left; reflexivity); right).
Qed.
(** With a gap of three bytes there is none. *)
Example C39_example : let out' := Slice 3 25 37 37 in
  disjoint_parts c12_st (reach (RFast true) 17 (bytes (c12_mem 60) c12_st)) out' 37 /\
  ~ disjoint_parts c12_st (reach (RFast true) 17 (bytes (c12_mem 60) c12_st)) (Slice 3 24 37 37) 37 /\
  Forall (fun e => match e with EWrB _ i => 25 <= i < 62 | _ => True end) (trace (run (Encode.Put8uint32Scalar ex_in out') (c12_mem 60))) /\
  Forall (fun e => match e with ERdB _ i => i < 25 | _ => True end) (trace (run (ReadAllFast (AMD64 true true) 17 c12_st ex_out) (c12_mem 60))).
Proof.
  split; [|split; [|split]].
  - right. left. vm_compute. discriminate.
  - vm_compute. intuition congruence.
  - vm_compute. repeat constructor; discriminate.
  - vm_compute. repeat constructor; discriminate.
Qed.
