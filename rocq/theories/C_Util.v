(** * The helpers of pkg/util: C28 to C31 *)
From stdpp Require Import prelude gmap list.
From Coq Require Import ZArith Lia.
From Verif Require Import Spec SpecLemmas GoSem Shared Asm Wp TableProof EncodeProof EncodeProof2 DecodeProof DecodeProof2 Writer WriterProof ReaderProof Api ApiLemmas Witness C_Writer Util UtilSpec UtilProof.
Local Open Scope Z_scope.

(** What Delta may touch. *)
Definition delta_may (inp out : slice) (e : event) : Prop :=
  match e with
  | ERdW b i => b = s_blk inp /\ within inp (s_len inp) i
  | EWrW b i => b = s_blk out /\ within out (Z.min (s_len inp) (s_len out)) i
  | _ => False
  end.

(** ** C28: Delta *)
Lemma at_splice_out o R l i : 0 <= o -> o + zlen R <= zlen l -> ~ (o <= i < o + zlen R) -> 0 <= i -> at_ (splice o R l) i = at_ l i.
Proof.
  intros Ho Hl Hi Hi0. unfold at_. assert (E : splice o R l !! Z.to_nat i = l !! Z.to_nat i).
  { rewrite splice_lookup by done. destruct (decide _); [done|]. destruct (decide _); [lia|done]. }
  destruct (l !! Z.to_nat i) as [x|] eqn:Ex.
  - rewrite (nth_lookup_Some _ _ 0 _ E), (nth_lookup_Some _ _ 0 _ Ex). done.
  - apply lookup_ge_None in E, Ex. by rewrite !nth_overflow.
Qed.
Lemma at_nth (l : list Z) i : at_ l i = nth (Z.to_nat i) l 0.
Proof. done. Qed.
Lemma nth_deltas p xs n : (n < length xs)%nat -> nth n (deltas p xs) 0 = (nth n xs 0 - match n with O => p | S n' => nth n' xs 0 end) mod 2 ^ 32.
Proof.
  revert p n. induction xs as [|x xs IH]; intros p n Hn; [cbn in Hn; lia|]. destruct n as [|n]; [done|].
  cbn [deltas nth]. cbn in Hn. rewrite IH by lia. destruct n; done.
Qed.
Lemma nth_alternating p xs n : (n < length xs)%nat -> nth n (alternating p xs) 0 = (nth n xs 0 - match n with O => p | S n' => nth n' (alternating p xs) 0 end) mod 2 ^ 32.
Proof.
  revert p n. induction xs as [|x xs IH]; intros p n Hn; [cbn in Hn; lia|]. destruct n as [|n]; [done|].
  cbn [alternating nth]. cbn in Hn. rewrite IH by lia. destruct n; done.
Qed.
Lemma alternating_length p xs : length (alternating p xs) = length xs.
Proof. revert p. induction xs as [|x xs IH]; intros p; [done|]. cbn. by rewrite IH. Qed.

Section Delta.
Variables (inp out : slice) (m : mem).
Hypotheses (Ht : typed m) (Hi : validW m inp) (Ho : validW m out).
Let X := words m inp.
Lemma X_at i : 0 <= i < s_len inp -> at_ (blk (mw m) (s_blk inp)) (s_off inp + i) = nth (Z.to_nat i) X 0.
Proof. destruct Hi as [(H1 & H2 & H3) _]. intros Hr. rewrite <- at_nth. unfold X. rewrite words_sub, at_sub; [done|lia|lia|unfold zlen, blk; lia]. Qed.
Lemma X_u32 i : 0 <= i < s_len inp -> is_u32 (nth (Z.to_nat i) X 0).
Proof.
  intros Hr. pose proof (typed_words m inp Ht) as HX. pose proof (contents_length _ _ (proj1 Hi)) as L. apply (Forall_nth _ 0 _); [done|]. unfold X, words. lia.
Qed.
(** What is left in the input's allocation while the loop runs. *)
Lemma in_flight R i j : 0 <= i <= zlen R -> i <= s_len out -> 0 <= j < s_len inp ->
  at_ (blk (mw (rmem m out (take (Z.to_nat i) R))) (s_blk inp)) (s_off inp + j) =
  if bool_decide (s_blk out = s_blk inp /\ s_off out <= s_off inp + j < s_off out + i) then nth (Z.to_nat (s_off inp + j - s_off out)) R 0 else nth (Z.to_nat j) X 0.
Proof.
  intros HR Hl Hj. destruct Hi as [(I1 & I2 & I3) _], Ho as [(O1 & O2 & O3) _].
  assert (Lt : zlen (take (Z.to_nat i) R) = i) by (apply zlen_take; lia).
  destruct (decide (s_blk out = s_blk inp)) as [E|E].
  - destruct (rmem_blk m out (take (Z.to_nat i) R) (proj1 Ho) ltac:(lia)) as [Eb _]. rewrite <- E, Eb.
    assert (Hll : s_off out + zlen (take (Z.to_nat i) R) <= zlen (blk (mw m) (s_blk out))) by (unfold zlen, blk in *; lia).
    case_bool_decide as Hc.
    + rewrite at_splice by lia. unfold at_. rewrite <- (take_drop (Z.to_nat i) R) at 2. rewrite app_nth1; [done|]. unfold zlen in Lt. lia.
    + rewrite at_splice_out by (done || lia). rewrite E. by apply X_at.
  - rewrite bool_decide_false by tauto. rewrite <- X_at by done. f_equal. unfold rmem, setw. cbn. by apply blk_put_ne.
Qed.
Lemma Delta_decides R : zlen R = s_len inp -> Forall is_u32 R ->
  (forall i, 0 <= i < s_len inp -> i < s_len out ->
    nth (Z.to_nat i) R 0 = if 0 <? i then
      (nth (Z.to_nat i) X 0 - (if bool_decide (s_blk out = s_blk inp /\ s_off out <= s_off inp + (i - 1) < s_off out + i) then nth (Z.to_nat (s_off inp + (i - 1) - s_off out)) R 0 else nth (Z.to_nat (i - 1)) X 0)) mod 2 ^ 32
      else nth (Z.to_nat i) X 0) ->
  (forall i, 0 <= i < s_len inp -> ~ (s_blk out = s_blk inp /\ s_off out <= s_off inp + i < s_off out + i)) ->
  (s_len inp <= s_len out -> returns (Delta inp out) m tt (rmem m out R)) /\ (~ s_len inp <= s_len out -> panics (Delta inp out) m) /\
  accesses (Delta inp out) m (delta_may inp out).
Proof.
  intros LR HR Hstep Hcur. destruct Hi as [If Ic], Ho as [Of Oc]. apply wp_decides. pose proof If as (I1 & I2 & I3). pose proof Of as (O1 & O2 & O3).
  apply (wp_Delta inp out m R); [done|done|lia|done| | | |done|done].
  - intros i Hr. split; [done|]. unfold within. lia.
  - intros i Hr Hr2. split; [done|]. unfold within. lia.
  - intros i Hr Hr2. cbn zeta. rewrite !in_flight by lia. rewrite (bool_decide_false _ (Hcur i Hr)). rewrite at_nth, Hstep by done. destruct (Z.ltb_spec 0 i); [|done].
    rewrite in_flight by lia. done.
Qed.
End Delta.

(** Delta when the output does not run behind the input: another allocation, or a part
    of the same one that starts before the input or after its end.  out too short:
    run-time panic, after storing a prefix. *)
Theorem C28_delta_partial : forall inp out m, typed m -> validW m inp -> validW m out ->
  s_blk out <> s_blk inp \/ s_off out < s_off inp \/ s_off inp + s_len inp <= s_off out ->
  (s_len inp <= s_len out -> exists m', returns (Delta inp out) m tt m' /\ stores_words m m' out (deltas 0 (words m inp))) /\
  (~ s_len inp <= s_len out -> panics (Delta inp out) m) /\
  accesses (Delta inp out) m (delta_may inp out).
Proof.
  intros inp out m Ht Hi Ho Hd. pose proof (contents_length _ _ (proj1 Hi)) as LX. fold (words m inp) in LX.
  assert (0 <= s_len inp) by (destruct Hi as [(? & ? & ?) _]; lia).
  destruct (Delta_decides inp out m Hi Ho (deltas 0 (words m inp))) as (G1 & G2 & G3).
  - unfold zlen. rewrite deltas_length. lia.
  - apply deltas_u32.
  - intros i Hr Hr2. rewrite nth_deltas by lia. rewrite bool_decide_false by lia. destruct (Z.ltb_spec 0 i) as [H0|H0].
    + do 2 f_equal. destruct (Z.to_nat i) as [|k] eqn:Ek; [lia|]. f_equal. lia.
    + replace i with 0 by lia. rewrite Z.sub_0_r. apply Z.mod_small. replace 0%nat with (Z.to_nat 0) by done. by apply (X_u32 inp m Ht Hi); lia.
  - intros i Hr. lia.
  - split; [|done]. intros Hl. eexists. split; [by apply G1|]. apply rmem_stores; [apply Ho|]. unfold zlen. rewrite deltas_length. lia.
Qed.
(** In place, Delta computes something else: each element minus the *result* before it. *)
Theorem C28_in_place : forall inp out m, typed m -> validW m inp -> validW m out -> s_blk out = s_blk inp -> s_off out = s_off inp ->
  (s_len inp <= s_len out -> exists m', returns (Delta inp out) m tt m' /\ stores_words m m' out (alternating 0 (words m inp))) /\
  (~ s_len inp <= s_len out -> panics (Delta inp out) m) /\
  accesses (Delta inp out) m (delta_may inp out).
Proof.
  intros inp out m Ht Hi Ho Eb Eo. pose proof (contents_length _ _ (proj1 Hi)) as LX. fold (words m inp) in LX.
  assert (0 <= s_len inp) by (destruct Hi as [(? & ? & ?) _]; lia).
  assert (HU : forall p xs, Forall is_u32 (alternating p xs)).
  { intros p xs. revert p. induction xs as [|x xs IH]; intros p; [constructor|]. cbn. constructor; [unfold is_u32; apply Z.mod_pos_bound; lia|apply IH]. }
  destruct (Delta_decides inp out m Hi Ho (alternating 0 (words m inp))) as (G1 & G2 & G3).
  - unfold zlen. rewrite alternating_length. lia.
  - apply HU.
  - intros i Hr Hr2. rewrite nth_alternating by lia. destruct (Z.ltb_spec 0 i) as [H0|H0].
    + rewrite bool_decide_true by lia. do 2 f_equal. destruct (Z.to_nat i) as [|k] eqn:Ek; [lia|]. f_equal. lia.
    + replace i with 0 by lia. rewrite Z.sub_0_r. apply Z.mod_small. replace 0%nat with (Z.to_nat 0) by done. by apply (X_u32 inp m Ht Hi); lia.
  - intros i Hr. lia.
  - split; [|done]. intros Hl. eexists. split; [by apply G1|]. apply rmem_stores; [apply Ho|]. unfold zlen. rewrite alternating_length. lia.
Qed.
(** Writing the differences gives the stream of a differential writer started at 0. *)
Theorem C28_write : forall w w' B B' inp out m, typed m -> validW m inp -> validW m out -> mb m !! B = None -> mb m !! B' = None ->
  s_blk out <> s_blk inp \/ s_off out < s_off inp \/ s_off inp + s_len inp <= s_off out -> s_len inp <= s_len out ->
  exists m' st1 m1 st2 m2,
    returns (Delta inp out) m tt m' /\
    returns (write w B (Slice (s_blk out) (s_off out) (s_len inp) (s_cap out))) m' st1 m1 /\
    returns (write_delta w' B' inp 0) m st2 m2 /\
    bytes m1 st1 = bytes m2 st2 /\ s_len st1 = s_len st2.
Proof.
  intros w w' B B' inp out m Ht Hi Ho Hf Hf' Hd Hl.
  destruct (C28_delta_partial inp out m Ht Hi Ho Hd) as (G & _ & _). destruct (G Hl) as (m' & Hr & HS). clear G.
  pose proof (contents_length _ _ (proj1 Hi)) as LX. fold (words m inp) in LX. destruct Hi as [If Ic] eqn:EHi. clear EHi.
  pose proof If as (I1 & I2 & I3). destruct Ho as [(O1 & O2 & O3) Oc].
  set (out' := Slice (s_blk out) (s_off out) (s_len inp) (s_cap out)).
  assert (LD : length (deltas 0 (words m inp)) = Z.to_nat (s_len inp)) by (rewrite deltas_length; lia).
  destruct HS as (H0 & (S1 & S2 & S3) & S4). rewrite LD in *.
  assert (EW : words m' out' = deltas 0 (words m inp)).
  { rewrite <- S4. unfold words, contents, out'. cbn [s_len s_off s_blk]. rewrite take_take. f_equal. lia. }
  assert (Ht' : typed m').
  { split; [rewrite H0; apply Ht|]. intros b l Hb. destruct (decide (b = s_blk out)) as [->|E]; [|rewrite S1 in Hb by done; by eapply Ht].
    apply Forall_lookup. intros i x Hx. destruct (decide (s_off out <= Z.of_nat i < s_off out + Z.of_nat (Z.to_nat (s_len inp)))) as [Hin|Hout].
    - pose proof (deltas_u32 0 (words m inp)) as HU. rewrite <- EW in HU. apply (Forall_lookup_1 _ _ (i - Z.to_nat (s_off out))) with (x := x) in HU; [done|].
      unfold words, contents, out'. cbn [s_len s_off s_blk]. rewrite lookup_take, lookup_drop, Hb by lia. cbn. rewrite <- Hx. f_equal. lia.
    - specialize (S3 _ Hout). unfold hget in S3. rewrite Hb in S3. destruct (Z.leb_spec 0 (Z.of_nat i)); [|lia]. cbn in S3. rewrite Nat2Z.id, Hx in S3.
      destruct (mw m !! s_blk out) as [l0|] eqn:E0; [|done]. cbn in S3. symmetry in S3. pose proof (typed_w m Ht _ _ E0) as HU. by eapply Forall_lookup in HU. }
  assert (Hv' : validW m' out'). { split; [|done]. split; [done|]. unfold out'. cbn [s_len s_off s_blk s_cap]. rewrite S2. lia. }
  destruct (C04_delta_is_differences w' w B' B inp out' 0 m m' Ht (conj If Ic) Hf' ltac:(unfold is_u32; lia) Ht' Hv' ltac:(by rewrite H0) EW) as (st2 & m2 & st1 & m1 & R2 & R1 & E1 & E2 & _).
  exists m', st1, m1, st2, m2. done.
Qed.
(** The claim that Delta can be used in place is false: [1;2;4] becomes [1;1;3], not [1;1;2]. *)
Theorem C28_in_place_refuted : exists inp m, typed m /\ validW m inp /\
  exists m', returns (Delta inp inp) m tt m' /\ words m' inp <> deltas 0 (words m inp).
Proof.
  exists (Slice 0 0 3 3), (Mem ∅ {[ 0%nat := [1; 2; 4] ]}). split; [|split; [|eexists; split; [split; vm_compute; reflexivity|vm_compute; discriminate]]].
  - split; intros b l; [done|]. cbn. rewrite lookup_singleton_Some. intros [_ <-]. repeat constructor; lia.
  - split; [|vm_compute; discriminate]. unfold fits. vm_compute. intuition discriminate.
Qed.
Example C28_example :
  let r := run (Delta ex_in ex_out) ex_mem in
  result r = Ok tt /\ take 37 (words (final r) ex_out) = deltas 0 ex_nums /\ take 3 (deltas 0 ex_nums) = [5; 295; 69700] /\
  s_blk ex_out <> s_blk ex_in /\ s_len ex_in <= s_len ex_out.
Proof. vm_compute. repeat split; done. Qed.
Example C28_example_moving :
  let out := Slice 0 1 38 38 in let r := run (Delta ex_in out) ex_mem in
  result r = Ok tt /\ take 37 (words (final r) out) = deltas 0 ex_nums.
Proof. vm_compute. done. Qed.
Example C28_example_short : result (run (Delta ex_in (Slice 1 3 20 50)) ex_mem) = Panicked.
Proof. by vm_compute. Qed.
(** Delta when input and output lie in the same allocation, the output [sh] elements
    behind the start of the input (before it if [sh] is negative).  [seen i j] is what the
    loop finds at in[j] when it computes out[i]: a result already stored there, or the number. *)
Definition seen (sh : Z) (X R : list Z) (i j : Z) : Z :=
  if bool_decide (sh <= j < sh + i) then nth (Z.to_nat (j - sh)) R 0 else nth (Z.to_nat j) X 0.
Definition differences_seen (sh : Z) (X R : list Z) : Prop :=
  length R = length X /\
  forall i, 0 <= i < Z.of_nat (length X) -> nth (Z.to_nat i) R 0 = (seen sh X R i i - (if 0 <? i then seen sh X R i (i - 1) else 0)) mod 2 ^ 32.
Lemma seen_ext sh X R R' i j : (forall k, 0 <= k < i -> nth (Z.to_nat k) R 0 = nth (Z.to_nat k) R' 0) -> seen sh X R i j = seen sh X R' i j.
Proof. intros H. unfold seen. case_bool_decide; [apply H; lia|done]. Qed.
Lemma differences_seen_unique sh X R R' : differences_seen sh X R -> differences_seen sh X R' -> R = R'.
Proof.
  intros [L H] [L' H'].
  assert (A : forall n i, 0 <= i < Z.of_nat n -> Z.of_nat n <= Z.of_nat (length X) -> nth (Z.to_nat i) R 0 = nth (Z.to_nat i) R' 0).
  { induction n as [|n IH]; intros i Hi Hn; [lia|]. destruct (Z.lt_ge_cases i (Z.of_nat n)); [apply IH; lia|]. rewrite H, H' by lia.
    assert (E : forall k, 0 <= k < i -> nth (Z.to_nat k) R 0 = nth (Z.to_nat k) R' 0) by (intros; apply IH; lia).
    rewrite (seen_ext sh X R R' i i E), (seen_ext sh X R R' i (i - 1) E). done. }
  apply (nth_ext _ _ 0 0); [lia|]. intros n Hn. rewrite <- (Nat2Z.id n). apply (A (length X)); lia.
Qed.
Fixpoint seen_upto (sh : Z) (X : list Z) (n : nat) : list Z :=
  match n with
  | O => []
  | S n' => let R := seen_upto sh X n' in let i := Z.of_nat n' in R ++ [(seen sh X R i i - (if 0 <? i then seen sh X R i (i - 1) else 0)) mod 2 ^ 32]
  end.
Lemma seen_upto_length sh X n : length (seen_upto sh X n) = n.
Proof. induction n as [|n IH]; [done|]. cbn [seen_upto]. rewrite app_length, IH. cbn. lia. Qed.
Lemma seen_upto_nth sh X n k : (k < n)%nat -> nth k (seen_upto sh X n) 0 = nth k (seen_upto sh X (S k)) 0.
Proof.
  induction n as [|n IH]; intros Hk; [lia|]. destruct (decide (k = n)) as [->|]; [done|]. cbn [seen_upto]. cbv zeta. rewrite app_nth1 by (rewrite seen_upto_length; lia).
  rewrite IH by lia. done.
Qed.
Lemma differences_seen_exists sh X : differences_seen sh X (seen_upto sh X (length X)) /\ Forall is_u32 (seen_upto sh X (length X)).
Proof.
  split; [split; [apply seen_upto_length|]|].
  - intros i Hi. rewrite seen_upto_nth by lia. cbn [seen_upto]. cbv zeta. rewrite app_nth2; rewrite seen_upto_length; [|lia]. rewrite Nat.sub_diag. cbn [nth]. rewrite !Z2Nat.id by lia.
    assert (E : forall k, 0 <= k < i -> nth (Z.to_nat k) (seen_upto sh X (Z.to_nat i)) 0 = nth (Z.to_nat k) (seen_upto sh X (length X)) 0).
    { intros k Hk. rewrite (seen_upto_nth _ _ (Z.to_nat i)), (seen_upto_nth _ _ (length X)) by lia. done. }
    rewrite (seen_ext sh X _ _ i i E), (seen_ext sh X _ _ i (i - 1) E). done.
  - generalize (length X) as n. induction n as [|n IH]; [constructor|]. cbn [seen_upto]. cbv zeta. apply Forall_app. split; [exact IH|]. constructor; [|constructor].
    unfold is_u32. apply Z.mod_pos_bound. lia.
Qed.
(** Whatever the distance: the numbers stored are the differences of what is found at
    the time, and these equations determine them. *)
Theorem C28_same_allocation : forall inp out m, typed m -> validW m inp -> validW m out -> s_blk out = s_blk inp ->
  let sh := s_off out - s_off inp in
  (s_len inp <= s_len out -> exists R m', returns (Delta inp out) m tt m' /\ stores_words m m' out R /\
    differences_seen sh (words m inp) R /\ forall R', differences_seen sh (words m inp) R' -> R' = R) /\
  (~ s_len inp <= s_len out -> panics (Delta inp out) m) /\
  accesses (Delta inp out) m (delta_may inp out).
Proof.
  intros inp out m Ht Hi Ho Eb sh. pose proof (contents_length _ _ (proj1 Hi)) as LX. fold (words m inp) in LX.
  assert (L0 : 0 <= s_len inp) by (destruct Hi as [(? & ? & ?) _]; lia).
  destruct (differences_seen_exists sh (words m inp)) as [HD HU]. set (R := seen_upto sh (words m inp) (length (words m inp))) in *.
  pose proof HD as [LR HE].
  assert (G : (s_len inp <= s_len out -> returns (Delta inp out) m tt (rmem m out R)) /\ (~ s_len inp <= s_len out -> panics (Delta inp out) m) /\
    accesses (Delta inp out) m (delta_may inp out)).
  { pose proof Hi as [If Ic]. pose proof Ho as [Of Oc]. apply wp_decides. pose proof If as (I1 & I2 & I3). pose proof Of as (O1 & O2 & O3).
    apply (wp_Delta inp out m R); [done|done|lia|unfold zlen; lia| | | |done|done].
    - intros i Hr. split; [done|]. unfold within. lia.
    - intros i Hr Hr2. split; [done|]. unfold within. lia.
    - intros i Hr Hr2. cbn zeta. rewrite at_nth, HE by lia.
      assert (FL : forall j, 0 <= j < s_len inp -> at_ (blk (mw (rmem m out (take (Z.to_nat i) R))) (s_blk inp)) (s_off inp + j) = seen sh (words m inp) R i j).
      { intros j Hj. rewrite in_flight by (done || unfold zlen; lia). unfold seen. replace (s_off inp + j - s_off out) with (j - sh) by lia.
        rewrite (bool_decide_ext _ (sh <= j < sh + i)) by (unfold sh; split; [intros [_ H]; lia|intros; split; [done|lia]]). done. }
      rewrite FL by done. destruct (Z.ltb_spec 0 i); [rewrite FL by lia; done|]. assert (i = 0) as -> by lia. rewrite Z.sub_0_r.
      unfold seen. rewrite bool_decide_false by lia. apply Z.mod_small. by apply (X_u32 inp m Ht Hi); lia. }
  destruct G as (G1 & G2 & G3). split; [|done]. intros Hl. exists R, (rmem m out R). split; [by apply G1|].
  split; [apply rmem_stores; [apply Ho|unfold zlen; lia]|]. split; [done|]. intros R' H'. by eapply differences_seen_unique.
Qed.
(** It follows exactly where Delta goes wrong: an output that starts in the input, not at
    its start or with more than two numbers. *)
Theorem C28_overlap_wrong : forall inp out m, typed m -> validW m inp -> validW m out -> s_blk out = s_blk inp -> s_len inp <= s_len out ->
  let sh := s_off out - s_off inp in let X := words m inp in
  0 <= sh < s_len inp -> (if sh =? 0 then 2 < s_len inp /\ nth 0 X 0 <> 0 else nth 0 X 0 <> nth (Z.to_nat sh) X 0) ->
  exists R m', returns (Delta inp out) m tt m' /\ stores_words m m' out R /\ R <> deltas 0 X.
Proof.
  intros inp out m Ht Hi Ho Eb Hl sh X Hsh HX. pose proof (contents_length _ _ (proj1 Hi)) as LX. fold (words m inp) in LX. fold X in LX.
  destruct (C28_same_allocation inp out m Ht Hi Ho Eb) as (G & _ & _). destruct (G Hl) as (R & m' & G1 & G2 & [LR HE] & _). fold sh X in LR, HE.
  exists R, m'. split; [done|]. split; [done|]. intros ->.
  assert (U : forall i, 0 <= i < s_len inp -> is_u32 (nth (Z.to_nat i) X 0)) by (intros i Hr; by apply (X_u32 inp m Ht Hi)).
  assert (S0 : nth 0 (deltas 0 X) 0 = nth 0 X 0).
  { rewrite nth_deltas by lia. rewrite Z.sub_0_r. apply Z.mod_small. apply (U 0). lia. }
  assert (E2 : forall a b c, is_u32 a -> is_u32 b -> (a - c) mod 2 ^ 32 = (b - c) mod 2 ^ 32 -> a = b).
  { intros a b c Ha Hb E. unfold is_u32 in *. assert (T : (a - c - (b - c)) mod 2 ^ 32 = 0) by (rewrite Zminus_mod, E, Z.sub_diag; done).
    replace (a - c - (b - c)) with (a - b) in T by lia. apply Z.mod_divide in T; [|lia]. destruct T as [q T]. nia. }
  destruct (Z.eqb_spec sh 0) as [Ez|Ez].
  - destruct HX as [H2 HX]. pose proof (HE 2 ltac:(lia)) as T. unfold seen in T. rewrite Ez in T.
    rewrite (bool_decide_false (0 <= 2 < 0 + 2)), (bool_decide_true (0 <= 2 - 1 < 0 + 2)) in T by lia.
    change (Z.to_nat 2) with 2%nat in T. change (Z.to_nat (2 - 1 - 0)) with 1%nat in T. change (0 <? 2) with true in T. cbv iota in T.
    rewrite !nth_deltas in T by lia. pose proof (U 0 ltac:(lia)) as U0. change (Z.to_nat 0) with 0%nat in U0. unfold is_u32 in U0. apply HX.
    set (x0 := nth 0 X 0) in *. set (x1 := nth 1 X 0) in *. set (x2 := nth 2 X 0) in *.
    rewrite Zminus_mod_idemp_r in T. assert (V : (x2 - (x1 - x0) - (x2 - x1)) mod 2 ^ 32 = 0) by (rewrite Zminus_mod, <- T, Z.sub_diag; done).
    replace (x2 - (x1 - x0) - (x2 - x1)) with x0 in V by lia. rewrite Z.mod_small in V by lia. done.
  - pose proof (HE sh ltac:(lia)) as T. unfold seen in T.
    rewrite (bool_decide_true (sh <= sh < sh + sh)), (bool_decide_false (sh <= sh - 1 < sh + sh)) in T by lia.
    rewrite Z.sub_diag in T. change (Z.to_nat 0) with 0%nat in T. rewrite S0, nth_deltas in T by lia.
    rewrite (proj2 (Z.ltb_lt 0 sh)) in T by lia. destruct (Z.to_nat sh) as [|k] eqn:Ek; [lia|]. replace (Z.to_nat (sh - 1)) with k in T by lia.
    symmetry in T. apply E2 in T; [done|apply (U 0); lia|]. rewrite <- Ek. apply U. lia.
Qed.
(** [5; 7; 6; 9; 9] with the output two elements behind: the third and fourth results are
    already computed from the first two, and so on. *)
Example C28_overlap_example :
  let m := Mem ∅ {[ 0%nat := [5; 7; 6; 9; 9; 0; 0] ]} in let inp := Slice 0 0 5 7 in let out := Slice 0 2 5 5 in
  let r := run (Delta inp out) m in
  result r = Ok tt /\ words (final r) out = [5; 2; 2 ^ 32 - 2; 2 ^ 32 - 3; 2 ^ 32 - 4] /\ deltas 0 (words m inp) = [5; 2; 2 ^ 32 - 1; 3; 0] /\
  validW m inp /\ validW m out /\ nth 0 (words m inp) 0 <> nth 2 (words m inp) 0.
Proof.
  do 3 (split; [by vm_compute|]). split; [|split; [|by vm_compute]]; (split; [|vm_compute; discriminate]); unfold fits; vm_compute; intuition discriminate.
Qed.

(** ** C29: variable-length integers round trip *)
Definition put_varint (prev : option Z) (nums out : slice) : prog Z :=
  match prev with None => PutVarint nums out | Some p => PutDeltaVarint nums out p end.
Definition get_varint (cut : bool) (prev : option Z) (data out : slice) : prog Z :=
  match prev with None => GetVarint cut data out | Some p => GetDeltaVarint cut data out p end.
Definition coded (prev : option Z) (xs : list Z) : list Z := match prev with None => xs | Some p => deltas p xs end.
Definition decoded (prev : option Z) (xs : list Z) : list Z := match prev with None => xs | Some p => running_sums p xs end.

Lemma coded_u32 prev xs : Forall is_u32 xs -> Forall is_u32 (coded prev xs).
Proof. destruct prev; [intros _; apply deltas_u32|done]. Qed.
Lemma decoded_coded prev xs : Forall is_u32 xs -> decoded prev (coded prev xs) = xs.
Proof. destruct prev; [apply running_sums_deltas|done]. Qed.
Lemma coded_length prev xs : length (coded prev xs) = length xs.
Proof. destruct prev; [apply deltas_length|done]. Qed.
Lemma varint_bytes x : is_u32 x -> Forall is_byte (varint x) /\ (length (varint x) <= 5)%nat.
Proof.
  intros Hx. unfold is_u32 in Hx. split.
  - apply uv_terminated. change (128 * 128 ^ Z.of_nat 9) with (2 ^ 70). assert (2 ^ 32 < 2 ^ 70) by done. lia.
  - unfold varint. assert (E : forall n k y, 0 <= y < 128 ^ Z.of_nat (S k) -> (k <= n)%nat -> (length (uv n y) <= S k)%nat).
    { induction n as [|n IH]; intros k y Hy Hk; [cbn; lia|]. cbn [uv]. destruct (Z.ltb_spec y 128) as [|Hge]; [cbn; lia|]. cbn [length].
      destruct k as [|k]; [change (128 ^ Z.of_nat 1) with 128 in Hy; lia|]. apply le_n_S, IH; [|lia]. rewrite Nat2Z.inj_succ, Z.pow_succ_r in Hy by lia.
      split; [apply Z.div_pos; lia|apply Z.div_lt_upper_bound; lia]. }
    apply (E 9%nat 4%nat); [|lia]. change (128 ^ Z.of_nat 5) with (2 ^ 35). assert (2 ^ 32 < 2 ^ 35) by done. lia.
Qed.
Lemma varints_bytes xs : Forall is_u32 xs -> Forall is_byte (concat (map varint xs)) /\ (length (concat (map varint xs)) <= 5 * length xs)%nat.
Proof.
  induction 1 as [|x xs Hx _ [H1 H2]]; [by split; [constructor|cbn]|]. cbn [map concat length]. destruct (varint_bytes x Hx) as [G1 G2].
  split; [by apply Forall_app|]. rewrite app_length. lia.
Qed.
Lemma put_varint_run prev nums out m : typed m -> validW m nums -> validB m out ->
  let E := concat (map varint (coded prev (words m nums))) in
  (zlen E <= s_len out -> returns (put_varint prev nums out) m (zlen E) (bmem m out E)) /\
  (~ zlen E <= s_len out -> panics (put_varint prev nums out) m) /\
  accesses (put_varint prev nums out) m (encoder_may nums (s_len nums) out (s_len out)).
Proof.
  intros Ht [Hi Hic] [Ho Hoc] E. apply wp_decides. pose proof Hi as (I1 & I2 & I3). pose proof Ho as (O1 & O2 & O3).
  destruct prev as [p|]; [apply wp_PutDeltaVarint|apply wp_PutVarint]; try done; try lia; try (by apply typed_words);
    intros i Hr; (split; [done|unfold within; lia]).
Qed.
Lemma get_varint_run cut prev data out m : typed m -> validB m data -> validW m out ->
  (forall vs, varints (bytes m data) vs -> zlen vs <= s_len out -> returns (get_varint cut prev data out) m (s_len data) (rmem m out (decoded prev (map u32 vs)))) /\
  (~ (exists vs, varints (bytes m data) vs /\ zlen vs <= s_len out) -> panics (get_varint cut prev data out) m) /\
  accesses (get_varint cut prev data out) m (reader_may data (s_len data) out (s_len out)).
Proof.
  intros Ht [Hi Hic] [Ho Hoc]. pose proof Hi as (I1 & I2 & I3). pose proof Ho as (O1 & O2 & O3).
  assert (W : wp (reader_may data (s_len data) out (s_len out)) (~ exists vs, varints (bytes m data) vs /\ zlen vs <= s_len out) (get_varint cut prev data out) m
    (fun k m' => exists vs, varints (bytes m data) vs /\ zlen vs <= s_len out /\ k = s_len data /\ m' = rmem m out (decoded prev (map u32 vs)))).
  { pose proof (contents_zlen _ _ Hi) as L. fold (bytes m data) in L.
    destruct prev as [p|]; [apply wp_GetDeltaVarint|apply wp_GetVarint]; try done; try lia; try (by apply typed_bytes);
      try (intros i Hr; (split; [done|unfold within; lia])); intros vs Hv Hl; exists vs; split; try done; split; done. }
  apply wp_run in W as [W2 W1]. unfold returns, panics, accesses.
  destruct (run (get_varint cut prev data out) m) as [[r m'] t]. cbn in *. split; [|split; [|done]].
  - intros vs Hv Hl. destruct r as [k| | | |]; try done; [|exfalso; apply W1; by exists vs]. destruct W1 as (vs' & Hv' & _ & -> & ->). by rewrite (varints_det _ _ _ Hv Hv').
  - intros Hn. destruct r as [k| | | |]; try done. destruct W1 as (vs & Hv & Hl & _). exfalso. apply Hn. by exists vs.
Qed.

(** The writers: the exact bytes, and a run-time panic when out is too short. *)
Theorem C29_put : forall prev nums out m, typed m -> validW m nums -> validB m out ->
  let E := concat (map varint (coded prev (words m nums))) in
  (Z.of_nat (length E) <= s_len out -> exists m', returns (put_varint prev nums out) m (Z.of_nat (length E)) m' /\ stores_bytes m m' out E) /\
  (~ Z.of_nat (length E) <= s_len out -> panics (put_varint prev nums out) m) /\
  (length E <= 5 * length (words m nums))%nat /\
  accesses (put_varint prev nums out) m (encoder_may nums (s_len nums) out (s_len out)).
Proof.
  intros prev nums out m Ht Hi Ho E. destruct (put_varint_run prev nums out m Ht Hi Ho) as (G1 & G2 & G3). split; [|split; [done|split; [|done]]].
  - intros Hl. eexists. split; [by apply G1|]. apply bmem_spec; [apply Ho|done].
  - rewrite <- (coded_length prev (words m nums)). apply varints_bytes, coded_u32, typed_words, Ht.
Qed.
(** Decoding the bytes reported by the writer gives the numbers back, reading all of them. *)
Theorem C29_round_trip : forall cut prev nums buf out m, typed m -> validW m nums -> validB m buf -> validW m out ->
  5 * s_len nums <= s_len buf -> s_len nums <= s_len out ->
  exists k m1 m2,
    returns (put_varint prev nums buf) m k m1 /\
    returns (get_varint cut prev (Slice (s_blk buf) (s_off buf) k (s_cap buf)) out) m1 k m2 /\
    stores_words m1 m2 out (words m nums) /\ mb m2 = mb m1 /\ mw m1 = mw m.
Proof.
  intros cut prev nums buf out m Ht Hi Hb Ho H5 Hl. destruct (put_varint_run prev nums buf m Ht Hi Hb) as (G1 & _ & _).
  pose proof (contents_length _ _ (proj1 Hi)) as LX. fold (words m nums) in LX. assert (0 <= s_len nums) by (destruct Hi as [(? & ? & ?) _]; lia).
  set (c := coded prev (words m nums)) in *. set (E := concat (map varint c)) in *.
  assert (Hc : Forall is_u32 c) by (apply coded_u32, typed_words, Ht). destruct (varints_bytes c Hc) as [B1 B2]. fold E in B1, B2.
  assert (Lc : length c = length (words m nums)) by apply coded_length.
  assert (HE : zlen E <= s_len buf) by (unfold zlen; lia). pose proof (zlen_nonneg E).
  set (d := Slice (s_blk buf) (s_off buf) (zlen E) (s_cap buf)). set (m1 := bmem m buf E).
  assert (Ht1 : typed m1) by (by apply bmem_typed).
  assert (Hd : validB m1 d).
  { destruct Hb as [Hb Hbc]. split; [|done]. assert (G : inb (mb m1) buf) by (apply bmem_inb; [done|destruct Hb as (? & ? & ?); lia|done]). destruct G as (? & ? & ?). unfold d. split; [done|]. split; [|done]. cbn. lia. }
  assert (Ed : bytes m1 d = E).
  { destruct (bmem_spec m buf E (proj1 Hb) HE) as (_ & _ & S). transitivity (take (length E) (bytes m1 buf)); [|exact S]. unfold bytes, contents, d. cbn [s_len s_off s_blk]. rewrite take_take. f_equal. unfold zlen in *. lia. }
  destruct (get_varint_run cut prev d out m1 Ht1 Hd Ho) as (R1 & _ & _). specialize (R1 c).
  rewrite Ed in R1. specialize (R1 (varints_enc c Hc) ltac:(unfold zlen; lia)).
  assert (EU : map u32 c = c). { clear -Hc. induction Hc as [|x c Hx _ IH]; [done|]. cbn. rewrite IH. f_equal. apply Z.mod_small, Hx. }
  rewrite EU in R1. unfold c in R1. rewrite decoded_coded in R1 by (by apply typed_words).
  exists (zlen E), m1, (rmem m1 out (words m nums)). split; [by apply G1|]. split; [exact R1|]. split; [|done]. apply rmem_stores; [apply Ho|]. unfold zlen. lia.
Qed.
Example C29_example :
  let buf := Slice 7 1 200 200 in let m := Mem (<[ 7%nat := replicate 210 170 ]> (mb ex_mem)) (mw ex_mem) in
  let r := run (PutVarint ex_in buf) m in let r' := run (PutDeltaVarint ex_in buf 100) m in
  result r = Ok 84 /\ take 5 (bytes (final r) buf) = [5; 172; 2; 240; 162] /\ result r' = Ok 109 /\
  let s := run (GetVarint true (Slice 7 1 84 200) ex_out) (final r) in let s' := run (GetDeltaVarint true (Slice 7 1 109 200) ex_out 100) (final r') in
  result s = Ok 84 /\ take 37 (words (final s) ex_out) = ex_nums /\ result s' = Ok 109 /\ take 37 (words (final s') ex_out) = ex_nums.
Proof. vm_compute. repeat split; done. Qed.

(** ** C30: the varint readers on arbitrary bytes *)
(** They return exactly when the data are a sequence of complete encodings of at most
    len(out) numbers, and panic otherwise; they never loop and never touch anything
    outside data and out.  True of both versions of binary.Uvarint. *)
Theorem C30_decides : forall cut prev data out m, typed m -> validB m data -> validW m out ->
  (forall vs, varints (bytes m data) vs -> Z.of_nat (length vs) <= s_len out ->
     exists m', returns (get_varint cut prev data out) m (s_len data) m' /\ stores_words m m' out (decoded prev (map (fun v => v mod 2 ^ 32) vs))) /\
  (~ (exists vs, varints (bytes m data) vs /\ Z.of_nat (length vs) <= s_len out) -> panics (get_varint cut prev data out) m) /\
  accesses (get_varint cut prev data out) m (reader_may data (s_len data) out (s_len out)).
Proof.
  intros cut prev data out m Ht Hi Ho. destruct (get_varint_run cut prev data out m Ht Hi Ho) as (G1 & G2 & G3). split; [|done].
  intros vs Hv Hl. eexists. split; [by apply G1|]. change (fun v => v mod 2 ^ 32) with u32. apply rmem_stores; [apply Ho|]. unfold zlen. destruct prev; cbn [decoded]; rewrite ?running_sums_length, map_length; done.
Qed.
(** Either way the call ends: it returns or panics. *)
Theorem C30_terminates : forall cut prev data out m, typed m -> validB m data -> validW m out ->
  (exists m', returns (get_varint cut prev data out) m (s_len data) m') \/ panics (get_varint cut prev data out) m.
Proof.
  intros cut prev data out m Ht Hi Ho. destruct (get_varint_run cut prev data out m Ht Hi Ho) as (G1 & G2 & _).
  destruct (varints_dec (bytes m data)) as [[vs Hv]|(G & gv & B & E & HG & HB & Hno)].
  - destruct (decide (zlen vs <= s_len out)) as [H|H]; [left; eexists; by eapply G1|]. right. apply G2. intros (vs' & Hv' & Hl). by rewrite (varints_det _ _ _ Hv' Hv) in Hl.
  - right. apply G2. intros (vs' & Hv' & _). rewrite E in Hv'. destruct (varints_rest _ _ _ _ HG Hv') as [vb Hvb]. inversion Hvb as [E'|p r vs2 Hp _ E']; [by symmetry in E'|by eapply Hno].
Qed.
(** A truncated number: Uvarint reports 0 bytes read, the loop fills out and then panics. *)
Example C30_example_truncated :
  let m := Mem {[ 7%nat := [1; 2; 200] ]} (mw ex_mem) in
  let r := run (GetVarint true (Slice 7 0 3 3) ex_out) m in
  result r = Panicked /\ take 4 (words (final r) ex_out) = [1; 2; 0; 0] /\ length (trace r) = 81%nat.
Proof. vm_compute. done. Qed.
(** A number of more than 64 bits: the position goes backwards, here below 0. *)
Example C30_example_overflow :
  let m := Mem {[ 7%nat := replicate 10 255 ++ [1] ]} (mw ex_mem) in
  result (run (GetVarint true (Slice 7 0 11 11) ex_out) m) = Panicked /\ result (run (GetVarint false (Slice 7 0 11 11) ex_out) m) = Panicked.
Proof. vm_compute. done. Qed.
(** A value above 2^32 is cut off; a non-minimal encoding is accepted. *)
Example C30_example_wide :
  let m := Mem {[ 7%nat := [255; 255; 255; 255; 127; 129; 128; 0] ]} (mw ex_mem) in
  let r := run (GetVarint true (Slice 7 0 8 8) ex_out) m in
  result r = Ok 8 /\ take 2 (words (final r) ex_out) = [4294967295; 1].
Proof. vm_compute. done. Qed.

(** ** C31: RandUint32 *)
(** The claim is false: the upper bounds are inclusive, so each of the first three
    classes also yields the smallest number of the next class. *)
Theorem C31_refuted : exists k r v, 0 <= k /\ is_u32 r /\ RandUint32 k r = Some v /\ Z.of_nat (nbytes v) <> k mod 4 + 1.
Proof. exists 0, 256, 256. vm_compute. repeat split; try discriminate; congruence. Qed.
(** What does hold: the length is the class's except for exactly that number. *)
Lemma randUint32Range_eq low high r : 0 <= low <= high -> high < 2 ^ 32 -> high - low + 1 < 2 ^ 32 ->
  randUint32Range low high r = Some (r mod (high - low + 1) + low) /\ 0 <= r mod (high - low + 1) <= high - low.
Proof.
  intros H1 H2 H3. pose proof (Z.mod_pos_bound r (high - low + 1) ltac:(lia)) as Hm. split; [|lia]. unfold randUint32Range, u32. cbv zeta.
  rewrite (Z.mod_small (high - low)), (Z.mod_small (high - low + 1)) by lia. destruct (Z.eqb_spec (high - low + 1) 0); [lia|]. by rewrite Z.mod_small by lia.
Qed.
Theorem C31_class_partial : forall k r, 0 <= k -> is_u32 r ->
  exists v, RandUint32 k r = Some v /\ is_u32 v /\
    (Z.of_nat (nbytes v) = k mod 4 + 1 <-> ~ (k mod 4 < 3 /\ v = 2 ^ (8 * (k mod 4 + 1)))).
Proof.
  intros k r Hk Hr. unfold RandUint32. rewrite Z.rem_mod_nonneg by lia. pose proof (Z.mod_pos_bound k 4 ltac:(lia)) as Hm. set (j := k mod 4) in *. clearbody j.
  destruct (Z.ltb_spec j 0); [lia|]. unfold is_u32 in *.
  assert (Hj : j = 0 \/ j = 1 \/ j = 2 \/ j = 3) by lia. destruct Hj as [-> | [-> | [-> | ->]]].
  - change (nth_error generators (Z.to_nat 0)) with (Some (randUint32Range 0 (2 ^ 8))). cbv iota. destruct (randUint32Range_eq 0 (2 ^ 8) r ltac:(lia) ltac:(lia) ltac:(lia)) as [-> Hq].
    set (q := r mod _) in *. clearbody q. exists (q + 0). split; [done|]. split; [lia|]. change (2 ^ (8 * (0 + 1))) with 256. unfold nbytes. repeat match goal with |- context [if ?a <? ?b then _ else _] => destruct (Z.ltb_spec a b) end; lia.
  - change (nth_error generators (Z.to_nat 1)) with (Some (randUint32Range (2 ^ 8) (2 ^ 16))). cbv iota. destruct (randUint32Range_eq (2 ^ 8) (2 ^ 16) r ltac:(lia) ltac:(lia) ltac:(lia)) as [-> Hq].
    set (q := r mod _) in *. clearbody q. exists (q + 2 ^ 8). split; [done|]. split; [lia|]. change (2 ^ (8 * (1 + 1))) with 65536. unfold nbytes. repeat match goal with |- context [if ?a <? ?b then _ else _] => destruct (Z.ltb_spec a b) end; lia.
  - change (nth_error generators (Z.to_nat 2)) with (Some (randUint32Range (2 ^ 16) (2 ^ 24))). cbv iota. destruct (randUint32Range_eq (2 ^ 16) (2 ^ 24) r ltac:(lia) ltac:(lia) ltac:(lia)) as [-> Hq].
    set (q := r mod _) in *. clearbody q. exists (q + 2 ^ 16). split; [done|]. split; [lia|]. change (2 ^ (8 * (2 + 1))) with 16777216. unfold nbytes. repeat match goal with |- context [if ?a <? ?b then _ else _] => destruct (Z.ltb_spec a b) end; lia.
  - change (nth_error generators (Z.to_nat 3)) with (Some (randUint32Range (2 ^ 24) (2 ^ 32 - 1))). cbv iota. destruct (randUint32Range_eq (2 ^ 24) (2 ^ 32 - 1) r ltac:(lia) ltac:(lia) ltac:(lia)) as [-> Hq].
    set (q := r mod _) in *. clearbody q. exists (q + 2 ^ 24). split; [done|]. split; [lia|]. unfold nbytes. repeat match goal with |- context [if ?a <? ?b then _ else _] => destruct (Z.ltb_spec a b) end; lia.
Qed.
(** GenUint32(n) yields n numbers and never panics. *)
Theorem C31_gen : forall n ks rs, (forall i, 0 <= ks i) -> (forall i, is_u32 (rs i)) ->
  exists vs, GenUint32 n ks rs = map Some vs /\ length vs = n /\ Forall is_u32 vs.
Proof.
  intros n ks rs Hk Hr. unfold GenUint32. generalize 0%nat as a. induction n as [|n IH]; intros a; [exists []; by split; [|split; [|constructor]]|].
  destruct (IH (S a)) as (vs & E & L & HU). destruct (C31_class_partial (ks a) (rs a) (Hk a) (Hr a)) as (v & Ev & Hv & _).
  exists (v :: vs). cbn [seq map length]. rewrite Ev, E, L. split; [done|]. split; [done|]. by constructor.
Qed.
(** Every number does occur in its class. *)
Theorem C31_covers : forall v, is_u32 v -> exists k r, 0 <= k /\ is_u32 r /\ RandUint32 k r = Some v /\ Z.of_nat (nbytes v) = k mod 4 + 1.
Proof.
  intros v Hv. unfold is_u32 in *. unfold nbytes. destruct (Z.ltb_spec v (2 ^ 8)); [|destruct (Z.ltb_spec v (2 ^ 16)); [|destruct (Z.ltb_spec v (2 ^ 24))]].
  - exists 0, v. split; [lia|]. split; [lia|]. split; [|done]. change (RandUint32 0 v) with (randUint32Range 0 (2 ^ 8) v).
    rewrite (proj1 (randUint32Range_eq 0 (2 ^ 8) v ltac:(lia) ltac:(lia) ltac:(lia))), Z.mod_small by lia. f_equal. lia.
  - exists 1, (v - 2 ^ 8). split; [lia|]. split; [lia|]. split; [|done]. change (RandUint32 1 (v - 2 ^ 8)) with (randUint32Range (2 ^ 8) (2 ^ 16) (v - 2 ^ 8)).
    rewrite (proj1 (randUint32Range_eq (2 ^ 8) (2 ^ 16) _ ltac:(lia) ltac:(lia) ltac:(lia))), Z.mod_small by lia. f_equal. lia.
  - exists 2, (v - 2 ^ 16). split; [lia|]. split; [lia|]. split; [|done]. change (RandUint32 2 (v - 2 ^ 16)) with (randUint32Range (2 ^ 16) (2 ^ 24) (v - 2 ^ 16)).
    rewrite (proj1 (randUint32Range_eq (2 ^ 16) (2 ^ 24) _ ltac:(lia) ltac:(lia) ltac:(lia))), Z.mod_small by lia. f_equal. lia.
  - exists 3, (v - 2 ^ 24). split; [lia|]. split; [lia|]. split; [|done]. change (RandUint32 3 (v - 2 ^ 24)) with (randUint32Range (2 ^ 24) (2 ^ 32 - 1) (v - 2 ^ 24)).
    rewrite (proj1 (randUint32Range_eq (2 ^ 24) (2 ^ 32 - 1) _ ltac:(lia) ltac:(lia) ltac:(lia))), Z.mod_small by lia. f_equal. lia.
Qed.
Example C31_example : map (fun k => RandUint32 k 4294967295) [0; 1; 2; 3; 4] = [Some 0; Some 65280; Some 130814; Some 33554431; Some 0].
Proof. by vm_compute. Qed.

(** ** How often each number is drawn
    The draws of rand.Uint32() for which [P] holds, out of all 2^32. *)
Definition draws (P : Z -> Prop) `{!forall r, Decision (P r)} (N : Z) : Z := Z.of_nat (length (filter P (seqZ 0 N))).
Lemma draws_S P `{!forall r, Decision (P r)} N : 0 <= N -> draws P (N + 1) = draws P N + (if decide (P N) then 1 else 0).
Proof.
  intros HN. unfold draws. rewrite seqZ_app by lia. rewrite filter_app, app_length, Nat2Z.inj_add. f_equal.
  change (seqZ (0 + N) 1) with [0 + N]. rewrite Z.add_0_l. rewrite filter_cons. by destruct (decide (P N)).
Qed.
Lemma draws_ext P Q `{!forall r, Decision (P r)} `{!forall r, Decision (Q r)} N : (forall r, 0 <= r < N -> P r <-> Q r) -> draws P N = draws Q N.
Proof.
  intros HPQ. unfold draws. f_equal. f_equal.
  assert (HF : Forall (fun r => 0 <= r < N) (seqZ 0 N)) by (apply Forall_forall; intros r Hr%elem_of_seqZ; lia).
  revert HF. induction (seqZ 0 N) as [|r l IH]; intros HF; [done|]. inversion HF; subst. rewrite !filter_cons, IH by done.
  destruct (decide (P r)), (decide (Q r)); try done; exfalso; specialize (HPQ r); tauto.
Qed.
Lemma draws_none P `{!forall r, Decision (P r)} N : (forall r, 0 <= r < N -> ~ P r) -> draws P N = 0.
Proof.
  intros HP. rewrite (draws_ext P (fun _ => False)) by (intros r Hr; specialize (HP r Hr); tauto).
  unfold draws. induction (seqZ 0 N) as [|r l IH]; [done|]. rewrite filter_cons. destruct (decide False); [done|]. exact IH.
Qed.
Lemma draws_mod d t N : 0 <= t < d -> 0 <= N -> draws (fun r => r mod d = t) N = (N - 1 - t) / d + 1.
Proof.
  intros Ht. revert N. apply natlike_ind.
  - change (draws _ 0) with 0. symmetry. replace (0 - 1 - t) with ((d - 1 - t) + (-1) * d) by lia. rewrite Z.div_add by lia. rewrite Z.div_small by lia. lia.
  - intros N HN IH. change (Z.succ N) with (N + 1). rewrite draws_S by lia. rewrite IH. clear IH. replace (N + 1 - 1 - t) with (N - t) by lia.
    pose proof (Z.div_mod N d ltac:(lia)) as E. pose proof (Z.mod_pos_bound N d ltac:(lia)) as B. set (e := N mod d) in *. set (q := N / d) in *. clearbody e q. subst N. destruct (decide (e = t)) as [Em|Em].
    + replace (d * q + e - t) with (q * d) by lia. rewrite Z.div_mul by lia. replace (d * q + e - 1 - t) with ((d - 1) + (q - 1) * d) by lia.
      rewrite Z.div_add by lia. rewrite Z.div_small by lia. lia.
    + destruct (Z.lt_ge_cases e t).
      * replace (d * q + e - t) with ((e - t + d) + (q - 1) * d) by lia. replace (d * q + e - 1 - t) with ((e - t + d - 1) + (q - 1) * d) by lia.
        rewrite !Z.div_add, !Z.div_small by lia. lia.
      * replace (d * q + e - t) with ((e - t) + q * d) by lia. replace (d * q + e - 1 - t) with ((e - t - 1) + q * d) by lia.
        rewrite !Z.div_add, !Z.div_small by lia. lia.
Qed.
(** The numbers of class [j] = 0, 1, 2, 3, as randUint32Range is called. *)
Definition class_low (j : Z) : Z := if j =? 0 then 0 else 2 ^ (8 * j).
Definition class_high (j : Z) : Z := if j =? 3 then 2 ^ 32 - 1 else 2 ^ (8 * (j + 1)).
Lemma RandUint32_eq k r : 0 <= k -> let j := k mod 4 in
  RandUint32 k r = Some (r mod (class_high j - class_low j + 1) + class_low j) /\ 0 <= class_low j < class_high j /\ class_high j < 2 ^ 32.
Proof.
  intros Hk j. unfold RandUint32. rewrite Z.rem_mod_nonneg by lia. fold j. pose proof (Z.mod_pos_bound k 4 ltac:(lia)) as Hm. fold j in Hm. clearbody j.
  destruct (Z.ltb_spec j 0); [lia|].
  assert (Hj : j = 0 \/ j = 1 \/ j = 2 \/ j = 3) by lia. destruct Hj as [-> | [-> | [-> | ->]]].
  - split; [exact (proj1 (randUint32Range_eq 0 (2 ^ 8) r ltac:(lia) ltac:(lia) ltac:(lia)))|]. by vm_compute.
  - split; [exact (proj1 (randUint32Range_eq (2 ^ 8) (2 ^ 16) r ltac:(lia) ltac:(lia) ltac:(lia)))|]. by vm_compute.
  - split; [exact (proj1 (randUint32Range_eq (2 ^ 16) (2 ^ 24) r ltac:(lia) ltac:(lia) ltac:(lia)))|]. by vm_compute.
  - split; [exact (proj1 (randUint32Range_eq (2 ^ 24) (2 ^ 32 - 1) r ltac:(lia) ltac:(lia) ltac:(lia)))|]. by vm_compute.
Qed.
Lemma hits_eq k v : 0 <= k -> let j := k mod 4 in let d := class_high j - class_low j + 1 in
  draws (fun r => RandUint32 k r = Some v) (2 ^ 32) = if (class_low j <=? v) && (v <=? class_high j) then (2 ^ 32 - 1 - (v - class_low j)) / d + 1 else 0.
Proof.
  intros Hk j d. destruct (RandUint32_eq k 0 Hk) as (_ & B1 & B2). fold j in B1, B2. assert (Hd : 0 < d) by (unfold d; lia).
  destruct (_ && _) eqn:E.
  - apply andb_true_iff in E as [E1 E2]. apply Z.leb_le in E1, E2. rewrite <- (draws_mod d (v - class_low j)) by (unfold d; lia).
    apply draws_ext. intros r _. rewrite (proj1 (RandUint32_eq k r Hk)). fold j d. split; [intros [= <-]; lia|intros Hq; f_equal; lia].
  - apply draws_none. intros r _ Hr. rewrite (proj1 (RandUint32_eq k r Hk)) in Hr. fold j d in Hr. injection Hr as <-.
    pose proof (Z.mod_pos_bound r d Hd). apply andb_false_iff in E as [E|E]; apply Z.leb_gt in E; unfold d in *; lia.
Qed.
(** Within a class every number is equally likely, up to one draw out of 2^32. *)
Theorem C31_uniform : forall k v, 0 <= k -> let j := k mod 4 in let q := 2 ^ 32 / (class_high j - class_low j + 1) in
  class_low j <= v <= class_high j -> q <= draws (fun r => RandUint32 k r = Some v) (2 ^ 32) <= q + 1.
Proof.
  intros k v Hk j q Hv. rewrite hits_eq by done. fold j. rewrite (proj2 (andb_true_iff _ _)) by (split; apply Z.leb_le; lia).
  destruct (RandUint32_eq k 0 Hk) as (_ & B1 & B2). fold j in B1, B2. unfold q. set (d := class_high j - class_low j + 1) in *.
  assert (Hd : 0 < d) by (unfold d; lia). split.
  - apply Z.add_le_mono_r with (p := -1). replace (2 ^ 32 / d + -1) with ((2 ^ 32 + (-1) * d) / d) by (rewrite Z.div_add by lia; lia).
    replace ((2 ^ 32 - 1 - (v - class_low j)) / d + 1 + -1) with ((2 ^ 32 - 1 - (v - class_low j)) / d) by lia. apply Z.div_le_mono; [lia|]. unfold d. lia.
  - apply Z.add_le_mono_r. apply Z.div_le_mono; lia.
Qed.
(** The length is not the class's for so many of the 2^32 draws: about one in 257 in the
    first class, one in 65281 in the second, one in 2^24 - 2^16 + 1 in the third. *)
Theorem C31_misses : forall k, 0 <= k ->
  draws (fun r => option_map (fun v => Z.of_nat (nbytes v)) (RandUint32 k r) <> Some (k mod 4 + 1)) (2 ^ 32) = nth (Z.to_nat (k mod 4)) [16711935; 65791; 257; 0] 0.
Proof.
  intros k Hk. pose proof (Z.mod_pos_bound k 4 ltac:(lia)) as Hm.
  assert (HE : forall r, 0 <= r < 2 ^ 32 -> option_map (fun v => Z.of_nat (nbytes v)) (RandUint32 k r) <> Some (k mod 4 + 1) <->
    (k mod 4 < 3 /\ RandUint32 k r = Some (2 ^ (8 * (k mod 4 + 1))))).
  { intros r Hr. destruct (C31_class_partial k r Hk Hr) as (v & -> & _ & Hc). cbn [option_map]. split.
    - intros N. destruct (decide (k mod 4 < 3 /\ v = 2 ^ (8 * (k mod 4 + 1)))) as [[E ->]|E]; [done|]. exfalso. apply N. f_equal. by apply Hc.
    - intros [E1 E2] E3. assert (v = 2 ^ (8 * (k mod 4 + 1))) by congruence. assert (E4 : Z.of_nat (nbytes v) = k mod 4 + 1) by congruence. apply Hc in E4. tauto. }
  destruct (Z.lt_ge_cases (k mod 4) 3).
  - rewrite (draws_ext _ (fun r => RandUint32 k r = Some (2 ^ (8 * (k mod 4 + 1))))) by (intros r Hr; rewrite (HE r Hr); tauto).
    rewrite hits_eq by done. cbv zeta. set (j := k mod 4) in *. clearbody j. assert (Hj : j = 0 \/ j = 1 \/ j = 2) by lia.
    destruct Hj as [-> | [-> | ->]]; by vm_compute.
  - rewrite draws_none by (intros r Hr; rewrite (HE r Hr); lia). replace (k mod 4) with 3 by lia. done.
Qed.
Example C31_example_uniform : let j := 6 mod 4 in class_low j <= 70000 <= class_high j /\ 2 ^ 32 / (class_high j - class_low j + 1) = 257.
Proof. by vm_compute. Qed.
