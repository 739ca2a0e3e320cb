(** * What the portable functions leave in memory when they panic: C46

    A caller that recovers from the panic sees exactly this memory. *)
From stdpp Require Import prelude gmap list.
From Coq Require Import ZArith Lia.
From Verif Require Import Spec SpecLemmas GoSem Shared Tables TableProof Asm Wp Encode EncodeProof EncodeProof2 SimdProof AsmProof Decode DecodeProof DecodeProof2 WriterProof2 Reader ReaderProof ReaderProof2 ReaderProof4 Api ApiLemmas WriterProof UtilProof Witness C_Reader C_Prims C_Group8 Outcome Outcome2 Outcome3.
Local Open Scope Z_scope.

(** ** Vocabulary *)
(** How many of the leading pieces of the given lengths fit into [n] bytes. *)
Fixpoint whole (lens : list nat) (n : nat) : nat :=
  match lens with
  | l :: ls => if (l <=? n)%nat then S (whole ls (n - l)) else 0%nat
  | [] => 0%nat
  end.
Definition panics_unchanged {A} (p : prog A) (m : mem) : Prop := panics p m /\ final (run p m) = m.
Definition panics_storing_bytes {A} (p : prog A) (m : mem) (out : slice) (D : list Z) : Prop :=
  panics p m /\ stores_bytes m (final (run p m)) out D.
Definition panics_storing_words {A} (p : prog A) (m : mem) (out : slice) (D : list Z) : Prop :=
  panics p m /\ stores_words m (final (run p m)) out D.
(** The slice up to its capacity. *)
Definition full (s : slice) : slice := Slice (s_blk s) (s_off s) (s_cap s) (s_cap s).

Lemma whole_le ls n : (whole ls n <= length ls)%nat.
Proof. revert n. induction ls as [|l ls IH]; intros n; cbn [whole length]; [lia|]. destruct (Nat.leb_spec l n); [specialize (IH (n - l)%nat)|]; lia. Qed.
Lemma whole_sum ls n : (sum_nat (take (whole ls n) ls) <= n)%nat.
Proof.
  revert n. induction ls as [|l ls IH]; intros n; cbn [whole]; [cbn; lia|]. destruct (Nat.leb_spec l n); [|cbn; lia].
  cbn [take]. unfold sum_nat in *. cbn [fold_right]. specialize (IH (n - l)%nat). lia.
Qed.
Lemma whole_all ls n : (sum_nat ls <= n)%nat -> whole ls n = length ls.
Proof.
  revert n. induction ls as [|l ls IH]; intros n; [done|]. unfold sum_nat. cbn [fold_right whole length]. fold (sum_nat ls). intros.
  rewrite (proj2 (Nat.leb_le l n)) by lia. rewrite IH by lia. done.
Qed.
Lemma whole_eq ls n k : (k < length ls)%nat -> (sum_nat (take k ls) <= n < sum_nat (take (S k) ls))%nat -> whole ls n = k.
Proof.
  revert n k. induction ls as [|l ls IH]; intros n k; cbn [length]; [lia|]. intros Hk. cbn [whole].
  destruct k as [|k].
  - cbn [take]. unfold sum_nat. rewrite firstn_O. cbn [fold_right]. intros. destruct (Nat.leb_spec l n); lia.
  - rewrite !firstn_cons. unfold sum_nat. cbn [fold_right]. fold (sum_nat (take k ls)) (sum_nat (take (S k) ls)). intros [H1 H2].
    rewrite (proj2 (Nat.leb_le l n)) by lia. f_equal. apply IH; lia.
Qed.
Lemma whole_ge ls n k : (k <= length ls)%nat -> (sum_nat (take k ls) <= n)%nat -> (k <= whole ls n)%nat.
Proof.
  revert n k. induction ls as [|l ls IH]; intros n k; cbn [length]; [lia|]. intros Hk. cbn [whole].
  destruct k as [|k]; [lia|]. cbn [take]. unfold sum_nat. cbn [fold_right]. fold (sum_nat (take k ls)). intros H1.
  rewrite (proj2 (Nat.leb_le l n)) by lia. specialize (IH (n - l)%nat k). lia.
Qed.
Lemma sum_take_mono ls j k : (j <= k)%nat -> (sum_nat (take j ls) <= sum_nat (take k ls))%nat.
Proof. intros. replace k with (j + (k - j))%nat by lia. rewrite <- (take_drop j (take (j + (k - j)) ls)), sum_nat_app, take_take, Nat.min_l by lia. lia. Qed.
Lemma whole_lt ls n k : (n < sum_nat (take k ls))%nat -> (whole ls n < k)%nat.
Proof. intros H. destruct (le_lt_dec k (whole ls n)) as [Hk|]; [|done]. pose proof (whole_sum ls n). pose proof (sum_take_mono ls _ _ Hk). lia. Qed.

Lemma enc_take_length ys k : length (enc_data (take k ys)) = sum_nat (take k (map nbytes ys)).
Proof. by rewrite enc_data_length, firstn_map. Qed.

Lemma oc_panics {A} (p : prog A) m (P : mem -> Prop) : outcome p m (fun _ _ => False) P -> panics p m /\ P (final (run p m)).
Proof. unfold outcome, panics. destruct (result (run p m)); try done. Qed.
Lemma oc_unchanged {A} (p : prog A) m : outcome p m (fun _ _ => False) (fun m' => m' = m) -> panics_unchanged p m.
Proof. intros H. apply oc_panics in H. done. Qed.
Lemma oc_bytes {A} (p : prog A) m out D : fits (mb m) out -> zlen D <= s_len out -> outcome p m (fun _ _ => False) (fun m' => m' = bmem m out D) -> panics_storing_bytes p m out D.
Proof. intros Hf Hl H. apply oc_panics in H as [H1 H2]. split; [done|]. rewrite H2. by apply bmem_spec. Qed.
Lemma oc_words {A} (p : prog A) m out D : fits (mw m) out -> zlen D <= s_len out -> outcome p m (fun _ _ => False) (fun m' => m' = rmem m out D) -> panics_storing_words p m out D.
Proof. intros Hf Hl H. apply oc_panics in H as [H1 H2]. split; [done|]. rewrite H2. by apply rmem_stores. Qed.

(** ** Encoders of four and of eight *)
Definition put_group (eight : bool) (prev : option Z) (inp out : slice) : prog Z :=
  match eight, prev with
  | false, None => Put4uint32Scalar inp out
  | false, Some p => Put4uint32DeltaScalar inp out p
  | true, None => Put8uint32Scalar inp out
  | true, Some p => Put8uint32DeltaScalar inp out p
  end.
Definition group_size (eight : bool) : Z := if eight then 8 else 4.

Lemma to_code_take prev k xs : take k (to_code prev xs) = to_code prev (take k xs).
Proof.
  destruct prev as [p|]; [|done]. cbn [to_code]. revert p k. induction xs as [|x xs IH]; intros p [|k]; cbn; [done..|]. by rewrite IH.
Qed.

Lemma of_code_take prev k xs : of_code prev (take k xs) = take k (of_code prev xs).
Proof.
  destruct prev as [p|]; [|done]. cbn [of_code]. revert p k. induction xs as [|x xs IH]; intros p [|k]; cbn; [done..|]. by rewrite IH.
Qed.

Section put.
Context (inp out : slice) (m : mem) (Ht : typed m) (Hi : validW m inp) (Ho : validB m out).
Let W := blk (mw m) (s_blk inp).

Lemma put_stuck (ys xs : list Z) (k : nat) : (k < length ys)%nat -> (forall j, (j <= S k)%nat -> take j xs = take j ys) ->
  zlen (enc_data (take k xs)) <= s_len out < zlen (enc_data (take (S k) xs)) ->
  enc_data (take k xs) = enc_data (take (whole (map nbytes ys) (Z.to_nat (s_len out))) ys).
Proof.
  intros Hk HT. rewrite !HT by lia. unfold zlen. rewrite !enc_take_length. intros H. f_equal. f_equal. symmetry. apply whole_eq.
  - by rewrite map_length.
  - lia.
Qed.
Lemma put_fit_le (ys : list Z) : zlen (enc_data (take (whole (map nbytes ys) (Z.to_nat (s_len out))) ys)) <= s_len out.
Proof.
  unfold zlen. rewrite enc_take_length. pose proof (whole_sum (map nbytes ys) (Z.to_nat (s_len out))). destruct Ho as [(? & ? & ?) _]. lia.
Qed.
Lemma put_none (ys : list Z) : ys = [] -> bmem m out (enc_data (take (whole (map nbytes ys) (Z.to_nat (s_len out))) ys)) = m.
Proof. intros ->. apply bmem_nil. Qed.

Lemma put_group_panics eight prev :
  let ys := to_code prev (take (Z.to_nat (4 * (Z.min (group_size eight) (s_len inp) / 4))) (words m inp)) in
  s_len inp < group_size eight \/ s_len out < zlen (enc_data ys) ->
  outcome (put_group eight prev inp out) m (fun _ _ => False)
    (fun m' => m' = bmem m out (enc_data (take (whole (map nbytes ys) (Z.to_nat (s_len out))) ys))).
Proof.
  intros ys Hbad. set (N := group_size eight) in *. assert (HN : N = 4 \/ N = 8) by (destruct eight; auto).
  assert (Hl : 0 <= s_len inp) by (destruct Hi as [(? & ? & ?) _]; lia).
  set (G := 4 * (Z.min N (s_len inp) / 4)) in *.
  assert (HG : (s_len inp < 4 /\ G = 0) \/ (4 <= s_len inp /\ (s_len inp < 8 \/ N = 4) /\ G = 4) \/ (8 <= s_len inp /\ N = 8 /\ G = 8)).
  { unfold G. clearbody N. clear -HN Hl. Z.to_euclidean_division_equations; lia. }
  set (X := to_code prev (sub (s_off inp) N W)).
  assert (HX : forall j, (Z.of_nat j <= G) -> take j X = take j ys).
  { intros j Hj. unfold X, ys. rewrite !to_code_take. f_equal. unfold sub. rewrite !take_take. rewrite words_sub. unfold sub. rewrite take_take.
    fold W. f_equal. lia. }
  assert (Hys : Z.of_nat (length ys) = G).
  { unfold ys. rewrite to_code_length, take_words_length; [lia|apply Hi|]. lia. }
  assert (Hfull : zlen (enc_data ys) <= s_len out -> take (whole (map nbytes ys) (Z.to_nat (s_len out))) ys = ys).
  { intros. rewrite whole_all; [rewrite map_length; by apply take_ge|]. rewrite <- enc_data_length. unfold zlen in *. lia. }
  assert (H0 : s_len inp < 4 -> m = bmem m out (enc_data (take (whole (map nbytes ys) (Z.to_nat (s_len out))) ys))).
  { intros. symmetry. apply put_none. apply nil_length_inv. lia. }
  assert (HST : forall k, Z.of_nat k < G -> zlen (enc_data (take k X)) <= s_len out < zlen (enc_data (take (S k) X)) ->
     bmem m out (enc_data (take k X)) = bmem m out (enc_data (take (whole (map nbytes ys) (Z.to_nat (s_len out))) ys))).
  { intros k Hk Hst. f_equal. apply put_stuck; [lia| |done]. intros. apply HX. lia. }
  assert (HXys : G = N -> X = ys).
  { intros E. unfold X, ys, W. f_equal. rewrite sub_words by lia. f_equal. lia. }
  assert (HXl : N <= s_len inp -> length X = Z.to_nat N) by (intros; rewrite HXys; lia).
  destruct eight, prev as [p|]; cbn [put_group]; change (group_size _) with 8 in N || change (group_size _) with 4 in N.
  - eapply oc_mono; [| |apply (oc_Put8uint32DeltaScalar inp out p m (fun _ _ => False) _)]; [by intros ? ? [? ?]|intros m' E; exact E|apply Hi|apply Ho|fold W; change (deltas p (sub (s_off inp) 8 W)) with X..].
    + intros H1 H2. exfalso. rewrite HXys in H2 by lia. lia.
    + done.
    + intros H1 H2. rewrite HX in * by lia. rewrite (take_ge ys) in * by lia. f_equal. by rewrite Hfull.
    + intros k K1 K2 K3 K4. apply HST; lia.
  - eapply oc_mono; [| |apply (oc_Put8uint32Scalar inp out m (fun _ _ => False) _)]; [by intros ? ? [? ?]|intros m' E; exact E|apply Hi|apply Ho|by apply typed_blk_w|fold W; change (sub (s_off inp) 8 W) with X..].
    + intros H1 H2. exfalso. rewrite HXys in H2 by lia. lia.
    + done.
    + intros H1 H2. rewrite HX in * by lia. rewrite (take_ge ys) in * by lia. f_equal. by rewrite Hfull.
    + intros k K1 K2 K3 K4. apply HST; lia.
  - apply oc_Put4uint32DeltaScalar; [apply Hi|apply Ho|fold W; change (deltas p (sub (s_off inp) 4 W)) with X..].
    + intros H1 H2. rewrite HXys in H2 by lia. lia.
    + done.
    + intros H1 k [K1 K2]. rewrite HXl in K1 by lia. apply HST; [lia|done].
  - apply oc_Put4uint32Scalar; [apply Hi|apply Ho|by apply typed_blk_w|fold W; change (sub (s_off inp) 4 W) with X..].
    + intros H1 H2. rewrite HXys in H2 by lia. lia.
    + done.
    + intros H1 k [K1 K2]. rewrite HXl in K1 by lia. apply HST; [lia|done].
Qed.
End put.

(** C46, encoders of four or eight numbers: with fewer than four input numbers
    nothing is stored; otherwise the complete encodings of as many numbers as fit
    (of the complete groups of four) and nothing else. *)
Theorem C46_put_group : forall eight prev inp out m, typed m -> validW m inp -> validB m out -> prev_ok prev ->
  let ys := to_code prev (take (Z.to_nat (4 * (Z.min (group_size eight) (s_len inp) / 4))) (words m inp)) in
  s_len inp < group_size eight \/ s_len out < Z.of_nat (length (enc_data ys)) ->
  panics_storing_bytes (put_group eight prev inp out) m out (enc_data (take (whole (map nbytes ys) (Z.to_nat (s_len out))) ys)).
Proof.
  intros eight prev inp out m Ht Hi Ho _ ys Hbad. apply oc_bytes; [apply Ho|by apply (put_fit_le out m Ho)|]. by apply put_group_panics.
Qed.

(** ** Encoders of up to four *)
Definition put_some (prev : option Z) (inp out : slice) (count : Z) : prog Z :=
  match prev with None => PutUint32Scalar inp out count | Some p => PutUint32DeltaScalar inp out count p end.
Theorem C46_put_some : forall prev inp out m count, typed m -> validW m inp -> validB m out -> prev_ok prev ->
  let n := clipped count in
  let ys := to_code prev (take (Z.to_nat n) (words m inp)) in
  s_len inp < n \/ s_len out < Z.of_nat (length (enc_data ys)) ->
  panics_storing_bytes (put_some prev inp out count) m out (enc_data (take (whole (map nbytes ys) (Z.to_nat (s_len out))) ys)).
Proof.
  intros prev inp out m count Ht Hi Ho _ n ys Hbad. apply oc_bytes; [apply Ho|by apply (put_fit_le out m Ho)|].
  set (W := blk (mw m) (s_blk inp)). assert (Hn : 0 <= n <= 4) by (unfold n, clipped; lia).
  assert (Hl : 0 <= s_len inp) by (destruct Hi as [(? & ? & ?) _]; lia).
  set (X := fun i => to_code prev (sub (s_off inp) i W)).
  assert (HX : forall i, 0 <= i <= n -> i <= s_len inp -> X i = take (Z.to_nat i) ys).
  { intros i H1 H2. unfold X, ys. rewrite to_code_take. f_equal. unfold W. rewrite sub_words by lia. rewrite take_take. f_equal. lia. }
  assert (Hys : Z.of_nat (length ys) = Z.min n (s_len inp)).
  { unfold ys. rewrite to_code_length, words_sub. unfold sub. rewrite take_take, take_length, drop_length.
    destruct Hi as [(? & ? & ?) _]. unfold blk. lia. }
  assert (OK : n <= s_len inp -> zlen (enc_data (X n)) <= s_len out -> False).
  { intros H1 H2. rewrite HX in H2 by lia. rewrite take_ge in H2 by lia. unfold zlen in H2. lia. }
  assert (BAD : forall i, 0 <= i < n -> i <= s_len inp -> zlen (enc_data (X i)) <= s_len out ->
     s_len inp = i \/ s_len out < zlen (enc_data (X (i + 1))) ->
     bmem m out (enc_data (X i)) = bmem m out (enc_data (take (whole (map nbytes ys) (Z.to_nat (s_len out))) ys))).
  { intros i H1 H2 H3 H4. f_equal. f_equal. destruct (decide (s_len inp = i)) as [E|NE].
    - rewrite HX in * by lia. rewrite (take_ge ys (Z.to_nat i)) in * by lia. rewrite whole_all; [rewrite map_length; by rewrite take_ge|].
      rewrite <- enc_data_length. unfold zlen in H3. lia.
    - destruct H4 as [H4|H4]; [done|]. rewrite HX in * by lia. f_equal. unfold zlen in *. rewrite enc_take_length in *. symmetry. apply whole_eq.
      + rewrite map_length. lia.
      + replace (S (Z.to_nat i)) with (Z.to_nat (i + 1)) by lia. lia. }
  destruct prev as [p|]; cbn [put_some].
  - apply oc_PutUint32DeltaScalar; [apply Hi|apply Ho|exact OK|exact BAD].
  - apply oc_PutUint32Scalar; [apply Hi|apply Ho|by apply typed_blk_w|exact OK|exact BAD].
Qed.

(** ** Decoders of four and of eight *)
Definition get_group (eight : bool) (prev : option Z) (inp out : slice) (ctrl : Z) : prog unit :=
  match eight, prev with
  | false, None => Get4uint32Scalar inp out ctrl
  | false, Some p => Get4uint32DeltaScalar inp out ctrl p
  | true, None => Get8uint32Scalar inp out ctrl
  | true, Some p => Get8uint32DeltaScalar inp out ctrl p
  end.
Definition ctrl_ok (eight : bool) (c : Z) : Prop := if eight then is_u16 c else is_byte c.
Definition group_lens (eight : bool) (c : Z) : list nat := if eight then ctrl8_lens c else ctrl_lens c.
(** The plain functions store a group of four at once, the delta functions one
    number at a time once they know that [out] has room for the group. *)
Definition stored_group (prev : option Z) (k l : nat) : nat :=
  match prev with None => 4 * (Nat.min k l / 4) | Some _ => Nat.min k (4 * (l / 4)) end.

Lemma numbers_take ls k D : take k (numbers ls D) = numbers (take k ls) D.
Proof. unfold numbers. rewrite cut_take_lens, firstn_map. done. Qed.
Lemma group_lens_length eight c : Z.of_nat (length (group_lens eight c)) = group_size eight.
Proof. destruct eight; done. Qed.

Lemma stored_plain (k l : nat) (j : nat) : (j = 0 \/ j = 4)%nat -> (j <= k)%nat -> (j <= l)%nat -> (k < j + 4 \/ l < j + 4)%nat -> stored_group None k l = j.
Proof. intros Hj H1 H2 H3. unfold stored_group. assert (Hm : (j <= Nat.min k l < j + 4)%nat) by lia. revert Hm. generalize (Nat.min k l). intros x Hx.
  destruct Hj as [-> | ->]; [rewrite Nat.div_small by lia; done|]. replace (x / 4)%nat with 1%nat; [done|]. apply (Nat.div_unique x 4 1 (x - 4)); lia. Qed.
Lemma stored_delta p (k l : nat) : stored_group (Some p) k l = Nat.min k (4 * (l / 4)).
Proof. done. Qed.
Lemma div4 (l : nat) : (4 * (l / 4) <= l < 4 * (l / 4) + 4)%nat.
Proof. pose proof (Nat.div_mod l 4 ltac:(lia)). pose proof (Nat.mod_upper_bound l 4 ltac:(lia)). lia. Qed.

Section get.
Context (inp out : slice) (m : mem) (Ht : typed m) (Hi : validB m inp) (Ho : validW m out).
Let D := drop (Z.to_nat (s_off inp)) (blk (mb m) (s_blk inp)).

Lemma get_group_panics eight prev c : ctrl_ok eight c ->
  let ls := group_lens eight c in
  let j := stored_group prev (whole ls (Z.to_nat (s_len inp))) (Z.to_nat (s_len out)) in
  s_len inp < Z.of_nat (sum_nat ls) \/ s_len out < group_size eight ->
  outcome (get_group eight prev inp out c) m (fun _ _ => False) (fun m' => m' = rmem m out (of_code prev (numbers (take j ls) (bytes m inp)))).
Proof.
  intros Hc ls j Hbad.
  assert (Hl : 0 <= s_len inp /\ 0 <= s_len out) by (destruct Hi as [(? & ? & ?) _], Ho as [(? & ? & ?) _]; lia).
  set (w := whole ls (Z.to_nat (s_len inp))) in *. set (l := Z.to_nat (s_len out)) in *.
  pose proof (group_lens_length eight c) as HL. fold ls in HL. pose proof (div4 l) as Hd.
  assert (HM : forall k, size_at ls k <= s_len inp -> j = k -> rmem m out (of_code prev (nums_at ls k D)) = rmem m out (of_code prev (numbers (take j ls) (bytes m inp)))).
  { intros k H1 ->. f_equal. f_equal. unfold nums_at, D. apply numbers_bytes. exact H1. }
  assert (H0 : j = 0%nat -> m = rmem m out (of_code prev (numbers (take j ls) (bytes m inp)))).
  { intros ->. destruct prev; cbn; by rewrite rmem_nil. }
  assert (HW : forall k, (k < length ls)%nat -> size_at ls k <= s_len inp < size_at ls (S k) -> w = k).
  { intros k K1 K2. apply whole_eq; [done|]. unfold size_at in K2. lia. }
  assert (HWge : forall k, (k <= length ls)%nat -> size_at ls k <= s_len inp -> (k <= w)%nat).
  { intros k K1 K2. apply whole_ge; [done|]. unfold size_at in K2. lia. }
  assert (HWlt : forall k, s_len inp < size_at ls k -> (w < k)%nat).
  { intros k K. apply whole_lt. unfold size_at in K. lia. }
  assert (Hall : size_at ls (length ls) = Z.of_nat (sum_nat ls)) by (unfold size_at; by rewrite firstn_all).
  destruct eight; cbn [group_size ctrl_ok] in *.
  - assert (H8 : length ls = 8%nat) by lia. rewrite H8 in *.
    destruct (u16_parts c Hc) as (C0 & C1 & Ec).
    destruct prev as [p|]; cbn [get_group]; rewrite Ec.
    + apply (oc_Get8uint32DeltaScalar inp out _ _ p m (fun _ => False)); [done|done|apply Hi|apply Ho|by apply typed_blk_b|fold (ctrl8_lens c); change (ctrl8_lens c) with ls; fold D..].
      * intros. lia.
      * intros. apply H0. unfold j, stored_group. lia.
      * intros H1 H2. apply (HM 4%nat); [done|]. specialize (HWge 4%nat ltac:(lia) H1). unfold j, stored_group. lia.
      * intros k K1 K2 K3 K4. apply (HM k); [lia|]. unfold j, stored_group. rewrite (HW k) by (done || lia). lia.
    + apply (oc_Get8uint32Scalar inp out _ _ m (fun _ => False)); [done|done|apply Hi|apply Ho|by apply typed_blk_b|fold (ctrl8_lens c); change (ctrl8_lens c) with ls; fold D..].
      * intros. lia.
      * intros H. apply H0. apply stored_plain; [by left|lia|lia|]. destruct H as [H|H]; [left; by apply HWlt|right; lia].
      * intros H1 H2 H3. apply (HM 4%nat); [done|]. apply stored_plain; [by right|by apply HWge; [lia|]|lia|]. destruct H3 as [H3|H3]; [left; by apply HWlt|right; lia].
  - assert (H4 : length ls = 4%nat) by lia. rewrite H4 in *.
    destruct prev as [p|]; cbn [get_group].
    + apply oc_Get4uint32DeltaScalar; [done|apply Hi|apply Ho|by apply typed_blk_b|change (ctrl_lens c) with ls; fold D..].
      * intros. lia.
      * intros. apply H0. unfold j, stored_group. lia.
      * intros G k K1 K2. apply (HM k); [exact (proj1 K2)|]. unfold j, stored_group. rewrite (HW k) by (done || lia). lia.
    + apply oc_Get4uint32Scalar; [done|apply Hi|apply Ho|by apply typed_blk_b|change (ctrl_lens c) with ls; fold D..].
      * intros. lia.
      * intros H. apply H0. apply stored_plain; [by left|lia|lia|]. destruct H as [H|H]; [left; apply HWlt; change (0 + 4)%nat with 4%nat; rewrite Hall; exact H|right; lia].
Qed.
Lemma of_numbers_length prev ls S : length (of_code prev (numbers ls S)) = length ls.
Proof. rewrite of_code_length. unfold numbers. by rewrite map_length, cut_length. Qed.
End get.

(** C46, decoders of four or eight numbers. *)
Theorem C46_get_group : forall eight prev inp out m c, typed m -> validB m inp -> validW m out -> prev_ok prev -> ctrl_ok eight c ->
  let ls := group_lens eight c in
  let j := stored_group prev (whole ls (Z.to_nat (s_len inp))) (Z.to_nat (s_len out)) in
  s_len inp < Z.of_nat (sum_nat ls) \/ s_len out < group_size eight ->
  panics_storing_words (get_group eight prev inp out c) m out (of_code prev (numbers (take j ls) (bytes m inp))).
Proof.
  intros eight prev inp out m c Ht Hi Ho _ Hc ls j Hbad. apply oc_words; [apply Ho| |by apply get_group_panics].
  unfold zlen. rewrite of_numbers_length, take_length.
  assert (0 <= s_len out) by (destruct Ho as [(? & ? & ?) _]; lia). pose proof (div4 (Z.to_nat (s_len out))).
  pose proof (div4 (Nat.min (whole ls (Z.to_nat (s_len inp))) (Z.to_nat (s_len out)))). unfold j, stored_group. destruct prev; lia.
Qed.
(** In particular decoding four plain numbers is all or nothing. *)
Theorem C46_get4_atomic : forall inp out m c, typed m -> validB m inp -> validW m out -> is_byte c ->
  s_len inp < Z.of_nat (sum_nat (ctrl_lens c)) \/ s_len out < 4 -> panics_unchanged (Get4uint32Scalar inp out c) m.
Proof.
  intros inp out m c Ht Hi Ho Hc Hbad. apply oc_unchanged.
  apply oc_Get4uint32Scalar; [done|apply Hi|apply Ho|by apply typed_blk_b|lia|done].
Qed.

(** ** Decoders of up to four *)
Definition get_some (prev : option Z) (inp out : slice) (ctrl count : Z) : prog Z :=
  match prev with None => GetUint32Scalar inp out ctrl count | Some p => GetUint32DeltaScalar inp out ctrl count p end.
Theorem C46_get_some : forall prev inp out m c count, typed m -> validB m inp -> validW m out -> prev_ok prev -> is_byte c ->
  let n := clipped count in
  let ls := take (Z.to_nat n) (ctrl_lens c) in
  let j := Nat.min (whole ls (Z.to_nat (s_len inp))) (Z.to_nat (s_len out)) in
  s_len inp < Z.of_nat (sum_nat ls) \/ s_len out < n ->
  panics_storing_words (get_some prev inp out c count) m out (of_code prev (numbers (take j ls) (bytes m inp))).
Proof.
  intros prev inp out m c count Ht Hi Ho _ Hc n ls j Hbad.
  assert (Hl : 0 <= s_len inp /\ 0 <= s_len out) by (destruct Hi as [(? & ? & ?) _], Ho as [(? & ? & ?) _]; lia).
  apply oc_words; [apply Ho| |].
  { unfold zlen. rewrite of_numbers_length, take_length. unfold j. lia. }
  assert (Hn : 0 <= n <= 4) by (unfold n, clipped; lia).
  set (D := drop (Z.to_nat (s_off inp)) (blk (mb m) (s_blk inp))).
  assert (Hls : Z.of_nat (length ls) = n) by (unfold ls; rewrite take_length, ctrl_lens_length; lia).
  assert (HT : forall i, 0 <= i <= n -> take (Z.to_nat i) ls = take (Z.to_nat i) (ctrl_lens c)) by (intros; unfold ls; rewrite take_take; f_equal; lia).
  assert (BAD : forall i, 0 <= i < n -> i <= s_len out -> sizek c (Z.to_nat i) <= s_len inp -> s_len inp < sizek c (Z.to_nat (i + 1)) \/ s_len out = i ->
     rmem m out (of_code prev (numsk c (Z.to_nat i) D)) = rmem m out (of_code prev (numbers (take j ls) (bytes m inp)))).
  { intros i H1 H2 H3 H4. assert (j = Z.to_nat i) as ->.
    - unfold sizek in H3, H4. rewrite <- HT in H3, H4 by lia.
      assert (Z.to_nat i <= whole ls (Z.to_nat (s_len inp)))%nat by (apply whole_ge; lia).
      destruct H4 as [H4|H4]; [|lia]. assert (whole ls (Z.to_nat (s_len inp)) < Z.to_nat (i + 1))%nat by (apply whole_lt; lia). lia.
    - f_equal. f_equal. rewrite HT by lia. unfold numsk, D. apply numbers_bytes. exact H3. }
  assert (OK : sizek c (Z.to_nat n) <= s_len inp -> n <= s_len out -> False).
  { unfold sizek. fold ls. lia. }
  destruct prev as [p|]; cbn [get_some].
  - apply oc_GetUint32DeltaScalar; [done|apply Hi|apply Ho|by apply typed_blk_b|exact OK|exact BAD].
  - apply oc_GetUint32Scalar; [done|apply Hi|apply Ho|by apply typed_blk_b|exact OK|exact BAD].
Qed.

(** ** Readers *)
Definition read_scalar (prev : option Z) (n : Z) (st out : slice) : prog unit :=
  match prev with None => ReadAllScalar n st out | Some p => ReadAllDeltaScalar n st out p end.

Section readers.
Context (prev : option Z) (m : mem) (st out : slice) (n : Z).
Context (Ht : typed m) (Hs : validB m st) (Ho : validW m out).
Let S := bytes m st.
Let R := of_code prev (rD S n).

Lemma read_scalar_oc (P : mem -> Prop) : 0 <= n <= 2 ^ 62 ->
  (rdp S n n <= s_len st -> okout n out -> False) ->
  (0 < n -> s_len st < rcl n -> P m) ->
  (forall q, at_q S n st out q -> out_stop n out q \/ (match prev with None => data_stop S n st q | Some _ => data_stop_delta S n st q end) ->
     P (rmem m out (pre R q))) ->
  outcome (read_scalar prev n st out) m (fun _ _ => False) P.
Proof.
  intros Hn HQ HP0 HP. assert (Hok : rok (fun _ => True) m st out n S) by (apply reader_rok; done || lia).
  assert (s_len st <= 2 ^ 62) by (destruct Hs as [(? & ? & ?) ?]; lia).
  unfold R in HP. destruct prev as [p|]; cbn [read_scalar of_code] in *.
  - apply (oc_ReadAllDeltaScalar n st out p m S); try done. lia.
  - apply (oc_ReadAllScalar n st out m S); try done. lia.
Qed.
End readers.

(** C46, readers: control bytes missing. *)
Theorem C46_read_no_control : forall prev n st out m, typed m -> validB m st -> validW m out -> prev_ok prev -> 0 < n < 2 ^ 63 ->
  s_len st < Z.of_nat (nctrl (Z.to_nat n)) -> panics_unchanged (read_scalar prev n st out) m.
Proof.
  intros prev n st out m Ht Hs Ho _ Hn Hc. apply oc_unchanged. fold (rcl n) in Hc.
  destruct (Z.le_gt_cases n (2 ^ 62)) as [Hle|Hgt].
  - apply read_scalar_oc; [done|done|done|lia| | |].
    + intros H _. pose proof (rdp_ge (bytes m st) n n). lia.
    + done.
    + intros q (_ & Hq & _). pose proof (rdp_ge (bytes m st) n q). lia.
  - destruct Hs as [(? & ? & ?) ?], Ho as [(? & ? & ?) ?].
    apply (oc_reads _ _ True); [done|]. destruct prev as [p|]; cbn [read_scalar].
    + apply wp_ReadAllDeltaScalar_huge; [lia|unfold max_elems; lia|lia|done].
    + apply wp_ReadAllScalar_huge; [lia|unfold max_elems; lia|lia|done].
Qed.

(** How many of the [k] complete numbers of a truncated stream the readers store:
    the plain reader stores groups of four at once. *)
Definition stored_stream (prev : option Z) (n k : nat) : nat :=
  match prev with None => if (4 * (n / 4) <=? k)%nat then k else (4 * (k / 4))%nat | Some _ => k end.
(** How many numbers of a complete stream are stored when [out] is too short: the
    batches of 16 only need capacity, the groups of four and the rest need length. *)
Definition stored_short (n len cap : nat) : nat :=
  if (cap <? 16 * (n / 16))%nat then (16 * (cap / 16))%nat
  else if (len <? 4 * (n / 4))%nat then Nat.max (16 * (n / 16)) (4 * (len / 4)) else len.

Lemma of_nat_short n out : 0 <= n -> 0 <= s_len out <= s_cap out ->
  Z.of_nat (stored_short (Z.to_nat n) (Z.to_nat (s_len out)) (Z.to_nat (s_cap out))) = short n out.
Proof.
  intros Hn Ho. unfold stored_short, short, l16, l4.
  assert (E4 : Z.of_nat (4 * (Z.to_nat n / 4)) = n / 4 * 4) by (rewrite Nat2Z.inj_mul, Nat2Z.inj_div, Z2Nat.id by lia; lia).
  assert (E16 : Z.of_nat (16 * (Z.to_nat n / 16)) = n / 16 * 16) by (rewrite Nat2Z.inj_mul, Nat2Z.inj_div, Z2Nat.id by lia; lia).
  assert (F4 : Z.of_nat (4 * (Z.to_nat (s_len out) / 4)) = s_len out / 4 * 4) by (rewrite Nat2Z.inj_mul, Nat2Z.inj_div, Z2Nat.id by lia; lia).
  assert (F16 : Z.of_nat (16 * (Z.to_nat (s_cap out) / 16)) = s_cap out / 16 * 16) by (rewrite Nat2Z.inj_mul, Nat2Z.inj_div, Z2Nat.id by lia; lia).
  destruct (Nat.ltb_spec (Z.to_nat (s_cap out)) (16 * (Z.to_nat n / 16))), (Z.ltb_spec (s_cap out) (n / 16 * 16)); try lia.
  destruct (Nat.ltb_spec (Z.to_nat (s_len out)) (4 * (Z.to_nat n / 4))), (Z.ltb_spec (s_len out) (n / 4 * 4)); lia.
Qed.
Lemma out_stop_short n out q : 0 <= n -> 0 <= s_len out <= s_cap out -> 0 <= q < n -> q <= short n out -> out_stop n out q -> q = short n out.
Proof.
  intros Hn Ho Hq Hs. unfold out_stop, short, l16, l4 in *.
  assert (n / 16 * 16 <= n / 4 * 4 <= n) by (clear -Hn; Z.to_euclidean_division_equations; lia).
  assert (s_cap out / 16 * 16 <= s_cap out /\ s_len out / 4 * 4 <= s_len out) by (clear; Z.to_euclidean_division_equations; lia).
  intros [(H1 & H2 & H3)|[(H1 & H2 & H3 & H4)|(H1 & H2)]].
  - assert (q + 16 <= n / 16 * 16) by (clear -H1 H2 Hq; Z.to_euclidean_division_equations; lia).
    destruct (Z.ltb_spec (s_cap out) (n / 16 * 16)); [|lia]. clear -H1 H3 Hs Hq. Z.to_euclidean_division_equations; lia.
  - assert (q + 4 <= n / 4 * 4) by (clear -H2 H3 Hq; Z.to_euclidean_division_equations; lia).
    destruct (Z.ltb_spec (s_cap out) (n / 16 * 16)); [lia|]. destruct (Z.ltb_spec (s_len out) (n / 4 * 4)); [|lia].
    clear -H1 H2 H4 Hs Hq Ho. Z.to_euclidean_division_equations; lia.
  - destruct (Z.ltb_spec (s_cap out) (n / 16 * 16)); [lia|]. destruct (Z.ltb_spec (s_len out) (n / 4 * 4)); lia.
Qed.
Lemma short_room n out : 0 <= n -> 0 <= s_len out <= s_cap out -> n <= short n out <-> n <= s_len out \/ (n mod 16 = 0 /\ n <= s_cap out).
Proof.
  intros Hn Ho. unfold short, l16, l4.
  destruct (Z.ltb_spec (s_cap out) (n / 16 * 16)); [|destruct (Z.ltb_spec (s_len out) (n / 4 * 4))];
  split; intros; Z.to_euclidean_division_equations; lia.
Qed.

(** C46, readers: data bytes missing, or too little room, or both.  [k] numbers of
    the stream are complete; [j] numbers are stored. *)
Theorem C46_read : forall prev n st out m, typed m -> validB m st -> validW m out -> prev_ok prev -> 0 < n ->
  let S := bytes m st in
  let N := Z.to_nat n in
  let k := whole (stream_lens N S) (length S - nctrl N) in
  let j := Nat.min (stored_stream prev N k) (stored_short N (Z.to_nat (s_len out)) (Z.to_nat (s_cap out))) in
  Z.of_nat (nctrl N) <= s_len st ->
  ((j < N)%nat <-> ~ (well_formed N S /\ (n <= s_len out \/ (n mod 16 = 0 /\ n <= s_cap out)))) /\
  ((j < N)%nat -> panics_storing_words (read_scalar prev n st out) m (full out) (of_code prev (take j (decode_stream N S)))).
Proof.
  intros prev n st out m Ht Hs Ho _ Hn S N k j Hc. change (rcl n <= s_len st) in Hc. assert (HcN : Z.of_nat (nctrl N) = rcl n) by done.
  assert (HSl : zlen S = s_len st) by (apply contents_zlen, Hs).
  assert (HO : 0 <= s_len out <= s_cap out) by (destruct Ho as [(? & ? & ?) ?]; lia).
  pose proof (rcl_bounds n ltac:(lia)) as Hcb.
  assert (Hb : n <= 2 ^ 62) by (destruct Hs as [(? & ? & ?) ?]; lia).
  set (ls := stream_lens N S) in *.
  assert (Hls : length ls = N) by (unfold ls, N; rewrite stream_lens_all; [done|lia|lia]).
  assert (HkN : (k <= N)%nat) by (rewrite <- Hls; apply whole_le).
  pose proof (wf_rdp m st n Ht Hs ltac:(lia)) as Hwf. fold S N in Hwf.
  assert (Hwk : forall q, 0 <= q <= n -> rdp S n q <= s_len st -> q <= Z.of_nat k).
  { intros q Hq H. unfold rdp in H. fold N ls in H. unfold zlen in *.
    assert (Z.to_nat q <= k)%nat by (apply whole_ge; lia). lia. }
  assert (Hwk' : forall q, 0 <= q -> s_len st < rdp S n q -> Z.of_nat k < q).
  { intros q Hq H. unfold rdp in H. fold N ls in H. unfold zlen in *.
    assert (k < Z.to_nat q)%nat by (apply whole_lt; lia). lia. }
  assert (E4 : Z.of_nat (4 * (N / 4)) = l4 n) by (unfold l4, N; rewrite Nat2Z.inj_mul, Nat2Z.inj_div, Z2Nat.id by lia; lia).
  assert (HL4 : l4 n <= n < l4 n + 4 /\ l4 n mod 4 = 0) by (unfold l4; clear -Hn; Z.to_euclidean_division_equations; lia).
  pose proof (of_nat_short n out ltac:(lia) HO) as Hsh. fold N in Hsh.
  set (js := stored_short N (Z.to_nat (s_len out)) (Z.to_nat (s_cap out))) in *.
  pose proof (div4 k) as Hd4.
  assert (Hjk : (stored_stream prev N k <= k)%nat) by (unfold stored_stream; destruct prev; [lia|]; destruct (_ <=? _)%nat; lia).
  assert (Hkj : (stored_stream prev N k < N -> k < N)%nat).
  { unfold stored_stream. destruct prev; [done|]. destruct (Nat.leb_spec (4 * (N / 4)) k); lia. }
  split.
  - rewrite Hwf, <- short_room by lia. split.
    + intros Hj [H1 H2]. apply (Hwk n) in H1; lia.
    + intros H. destruct (Nat.lt_ge_cases j N) as [|Hj]; [done|exfalso]. apply H.
      assert (Hk : k = N) by lia. split; [|lia].
      destruct (Z.le_gt_cases (rdp S n n) (s_len st)) as [|Hg]; [done|]. apply Hwk' in Hg; lia.
  - intros Hj.
    assert (HR : zlen (rD S n) = n) by (apply rD_zlen; lia).
    assert (Hpre : of_code prev (take j (decode_stream N S)) = pre (of_code prev (rD S n)) (Z.of_nat j)).
    { unfold pre. rewrite Nat2Z.id. apply of_code_take. }
    assert (Hjc : Z.of_nat j <= s_cap out).
    { assert (short n out <= s_cap out \/ l16 n <= s_cap out /\ short n out = l16 n); [|lia].
      unfold short. destruct (Z.ltb_spec (s_cap out) (l16 n)); [left; clear -HO; Z.to_euclidean_division_equations; lia|].
      destruct (Z.ltb_spec (s_len out) (l4 n)); [|lia].
      assert (s_len out / 4 * 4 <= s_cap out) by (clear -HO; Z.to_euclidean_division_equations; lia). lia. }
    apply oc_words.
    + destruct Ho as [(? & ? & ?) ?]. unfold full, fits. cbn. lia.
    + cbn [s_len full]. unfold zlen. rewrite of_code_length, take_length. lia.
    + rewrite Hpre. change (rmem m (full out)) with (rmem m out). apply read_scalar_oc; [done|done|done|lia| |lia|].
      * intros H1 H2. apply short_room in H2; [|lia|done]. apply (Hwk n) in H1; lia.
      * intros q (Q1 & Q2 & Q3) Hst. fold S in Q2, Hst. do 2 f_equal. specialize (Hwk q ltac:(lia) Q2).
        destruct Hst as [Hst|Hst].
        -- pose proof (out_stop_short n out q ltac:(lia) HO Q1 Q3 Hst) as E.
           enough (q <= Z.of_nat (stored_stream prev N k)) by lia. unfold stored_stream. destruct prev; [lia|].
           destruct (Nat.leb_spec (4 * (N / 4)) k) as [|Hlt]; [lia|].
           destruct Hst as [(O1 & _)|[(_ & O2 & _)|(O1 & O2)]]; [| |lia];
           clear -O1 O2 Hwk Hd4 Q1 || clear -O1 Hwk Hd4 Q1 || clear -O2 Hwk Hd4 Q1; Z.to_euclidean_division_equations; lia.
        -- enough (q = Z.of_nat (stored_stream prev N k)) by lia. unfold stored_stream. destruct prev as [p|].
           ++ specialize (Hwk' (q + 1) ltac:(lia) Hst). lia.
           ++ destruct Hst as [(M4 & L4 & Hst)|(L4 & Hst)].
              ** specialize (Hwk' (q + 4) ltac:(lia) Hst).
                 assert (q + 4 <= l4 n) by (unfold l4; clear -M4 L4 Q1; Z.to_euclidean_division_equations; lia).
                 destruct (Nat.leb_spec (4 * (N / 4)) k); [lia|]. clear -M4 Hwk Hwk' Hd4 Q1. Z.to_euclidean_division_equations; lia.
              ** specialize (Hwk' (q + 1) ltac:(lia) Hst). destruct (Nat.leb_spec (4 * (N / 4)) k); lia.
Qed.

(** ** Concrete cases *)
(** Four bytes of room: the first two numbers (1 and 2 bytes) are stored, the third
    (3 bytes) is not. *)
Example C46_put_group_case : let out := Slice 5 4 4 56 in let r := run (put_group false None ex_in out) ex_mem in
  result r = Panicked /\ bytes (final r) (Slice 5 3 6 57) = [170; 5; 44; 1; 170; 170] /\
  whole (map nbytes [5; 300; 70000; 4294967295]) 4 = 2%nat.
Proof. by vm_compute. Qed.
(** Seven numbers instead of eight: the first group is stored. *)
Example C46_put_group_case2 : let r := run (put_group true None (Slice 0 2 7 38) ex_buf) ex_mem in
  result r = Panicked /\ bytes (final r) (Slice 5 4 12 56) = [5; 44; 1; 112; 17; 1; 255; 255; 255; 255; 170; 170].
Proof. by vm_compute. Qed.
Example C46_put_some_case : let r := run (put_some (Some 1) (Slice 0 2 2 38) ex_buf 3) ex_mem in
  result r = Panicked /\ bytes (final r) (Slice 5 4 5 56) = [4; 39; 1; 170; 170].
Proof. by vm_compute. Qed.
(** Lengths 1, 2, 3, 4 and eight bytes of data: the delta decoder stores three
    running sums, the plain decoder nothing. *)
Example C46_get_group_case : let inp := Slice 6 2 8 24 in
  let r := run (get_group false (Some 10) inp ex_out 228) ex_mem in let r' := run (get_group false None inp ex_out 228) ex_mem in
  result r = Panicked /\ words (final r) (Slice 1 2 6 50) = [7; 11; 13; 16; 7; 7] /\
  result r' = Panicked /\ words (final r') (Slice 1 2 6 50) = replicate 6 7.
Proof. by vm_compute. Qed.
Example C46_get_some_case : let r := run (get_some None (Slice 6 2 5 24) ex_out 228 4) ex_mem in
  result r = Panicked /\ words (final r) (Slice 1 2 6 50) = [7; 1; 2; 7; 7; 7].
Proof. by vm_compute. Qed.
Example C46_read_no_control_case : let r := run (read_scalar None 9 (Slice 6 0 2 26) ex_out) ex_mem in
  result r = Panicked /\ (2 < nctrl 9)%nat /\ final r = ex_mem.
Proof. split; [by vm_compute|]. split; [vm_compute; lia|by vm_compute]. Qed.
Example C46_read_truncated_case : let st := Slice 6 0 15 26 in
  let r := run (read_scalar (Some 10) 8 st ex_out) ex_mem in let r' := run (read_scalar None 8 st ex_out) ex_mem in
  whole (stream_lens 8 (bytes ex_mem st)) (15 - nctrl 8) = 4%nat /\ stream_size 8 (bytes ex_mem st) = 22%nat /\
  result r = Panicked /\ words (final r) (Slice 1 2 6 50) = [7; 11; 13; 16; 20; 7] /\
  result r' = Panicked /\ words (final r') (Slice 1 2 6 50) = [7; 1; 2; 3; 4; 7].
Proof. by vm_compute. Qed.
(** [out] has length 10 and capacity 20, 17 numbers are requested: 16 are stored,
    six of them behind the length of [out]. *)
Example C46_read_short_case : let out := Slice 1 3 10 20 in let r := run (read_scalar None 17 (Slice 5 0 60 60) out) ex_mem in
  stored_short 17 10 20 = 16%nat /\ result r = Panicked /\
  words (final r) (Slice 1 2 18 50) = 7 :: replicate 16 11184810 ++ [7].
Proof. by vm_compute. Qed.
(** A truncated stream and a short [out] at once: of eight numbers five are complete,
    and there is room for six; only the first group is stored. *)
Example C46_read_case : let st := Slice 6 0 17 26 in let out := Slice 1 3 6 7 in
  let r := run (read_scalar (Some 10) 8 st out) ex_mem in
  Nat.min (stored_stream (Some 10) 8 (whole (stream_lens 8 (bytes ex_mem st)) (17 - nctrl 8))) (stored_short 8 6 7) = 4%nat /\
  stored_stream (Some 10) 8 5 = 5%nat /\
  result r = Panicked /\ words (final r) (Slice 1 2 6 50) = [7; 11; 13; 16; 20; 7].
Proof. by vm_compute. Qed.
