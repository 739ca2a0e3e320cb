(** * The scalar and SIMD encoders and decoders of single groups: C13, C15 - C21 *)
From stdpp Require Import prelude gmap list.
From Coq Require Import ZArith Lia.
From Verif Require Import Spec SpecLemmas GoSem Shared Tables TableProof Asm Wp Encode EncodeProof EncodeProof2 SimdProof AsmProof Decode DecodeProof DecodeProof2 ReaderProof Api ApiLemmas Witness C_Reader.
Local Open Scope Z_scope.

(** ** Helpers *)
Lemma sub_words m inp n : 0 <= n <= s_len inp -> sub (s_off inp) n (blk (mw m) (s_blk inp)) = take (Z.to_nat n) (words m inp).
Proof. intros. rewrite words_sub. unfold sub. rewrite take_take. f_equal. lia. Qed.
Lemma numbers_bytes m inp ls : Z.of_nat (sum_nat ls) <= s_len inp ->
  map le_val (cut ls (drop (Z.to_nat (s_off inp)) (blk (mb m) (s_blk inp)))) = numbers ls (bytes m inp).
Proof.
  intros. unfold numbers. rewrite bytes_sub. unfold sub. rewrite cut_take_le by lia. done.
Qed.
Lemma numbers_length ls d : length (numbers ls d) = length ls.
Proof. unfold numbers. by rewrite map_length, cut_length. Qed.
Lemma encoder_may_mono inp out a b c d e : a <= b -> c <= d -> encoder_may inp a out c e -> encoder_may inp b out d e.
Proof. destruct e; cbn; unfold within; lia. Qed.
Lemma decides_rp {A} (ok : Prop) (p : prog A) m : ok \/ ~ ok -> (ok -> exists v m', returns p m v m') -> (~ ok -> panics p m) -> returns_or_panics p m.
Proof.
  intros [H|H] H1 H2; unfold returns_or_panics; [destruct (H1 H) as (v & m' & E & _); by rewrite E|specialize (H2 H); unfold panics in H2; by rewrite H2].
Qed.

(** What an encoder of [n] numbers of [inp] does when the numbers encode to [D] with
    control [c], for arbitrary slices: it succeeds if [inp] and [out] are long enough,
    and else panics, having touched nothing outside [inp] and [out]. *)
Definition enc_reach (n : Z) (inp out : slice) (D : list Z) : Z :=
  Z.min (if n <=? s_len inp then Z.of_nat (length D) else 4 * n) (s_len out).
Definition encodes (p : prog Z) (inp : slice) (n : Z) (out : slice) (m : mem) (c : Z) (D : list Z) : Prop :=
  let ok := n <= s_len inp /\ Z.of_nat (length D) <= s_len out in
  (ok -> exists m', returns p m c m' /\ stores_bytes m m' out D) /\
  (~ ok -> panics p m) /\
  accesses p m (encoder_may inp (Z.min n (s_len inp)) out (enc_reach n inp out D)).
(** A scalar decoder of numbers with byte lengths [ls] from [inp]. *)
Definition decodes {A} (p : prog A) (inp : slice) (ls : list nat) (out : slice) (m : mem) (v : A) (R : list Z) : Prop :=
  let ok := Z.of_nat (sum_nat ls) <= s_len inp /\ Z.of_nat (length ls) <= s_len out in
  (ok -> exists m', returns p m v m' /\ stores_words m m' out R) /\
  (~ ok -> panics p m) /\
  accesses p m (reader_may inp (Z.min (Z.of_nat (sum_nat ls)) (s_len inp)) out (Z.min (Z.of_nat (length ls)) (s_len out))).

(** The same with the final memory given outright. *)
Definition encodes_at (p : prog Z) (inp : slice) (n : Z) (out : slice) (m : mem) (c : Z) (D : list Z) : Prop :=
  let ok := n <= s_len inp /\ Z.of_nat (length D) <= s_len out in
  (ok -> returns p m c (bmem m out D)) /\ (~ ok -> panics p m) /\
  accesses p m (encoder_may inp (Z.min n (s_len inp)) out (enc_reach n inp out D)).
Definition decodes_at {A} (p : prog A) (inp : slice) (ls : list nat) (out : slice) (m : mem) (v : A) (R : list Z) : Prop :=
  let ok := Z.of_nat (sum_nat ls) <= s_len inp /\ Z.of_nat (length ls) <= s_len out in
  (ok -> returns p m v (rmem m out R)) /\ (~ ok -> panics p m) /\
  accesses p m (reader_may inp (Z.min (Z.of_nat (sum_nat ls)) (s_len inp)) out (Z.min (Z.of_nat (length ls)) (s_len out))).
Lemma encodes_at_encodes p inp n out m c D : validB m out -> encodes_at p inp n out m c D -> encodes p inp n out m c D.
Proof.
  intros Hv (H1 & H2 & H3). split; [|done]. intros Hok. eexists. split; [by apply H1|]. apply bmem_spec; [apply Hv|apply Hok].
Qed.
Lemma decodes_at_decodes {A} (p : prog A) inp ls out m v R : validW m out -> length R = length ls ->
  decodes_at p inp ls out m v R -> decodes p inp ls out m v R.
Proof.
  intros Hv E (H1 & H2 & H3). split; [|done]. intros Hok. eexists. split; [by apply H1|].
  apply rmem_stores; [apply Hv|]. unfold zlen. rewrite E. apply Hok.
Qed.
Lemma encodes_at_intro (p : prog Z) inp n out m c D D' : (n <= s_len inp -> D = D') ->
  wp (encoder_may inp (Z.min n (s_len inp)) out (enc_reach n inp out D)) (~ (n <= s_len inp /\ zlen D <= s_len out)) p m
     (fun a m1 => (n <= s_len inp /\ zlen D <= s_len out) /\ a = c /\ m1 = bmem m out D') ->
  encodes_at p inp n out m c D.
Proof.
  intros E H. apply wp_decides in H as (H1 & H2 & H3). split; [|done]. intros Hok.
  rewrite E by apply Hok. by apply H1.
Qed.
Lemma encodes_intro (p : prog Z) inp n out m c D D' : validB m out -> (n <= s_len inp -> D = D') ->
  wp (encoder_may inp (Z.min n (s_len inp)) out (enc_reach n inp out D)) (~ (n <= s_len inp /\ zlen D <= s_len out)) p m
     (fun a m1 => (n <= s_len inp /\ zlen D <= s_len out) /\ a = c /\ m1 = bmem m out D') ->
  encodes p inp n out m c D.
Proof. intros Hv E H. apply encodes_at_encodes; [done|]. by eapply encodes_at_intro. Qed.
Lemma decodes_intro {A} (p : prog A) inp ls out m v R : validW m out -> length R = length ls ->
  wp (reader_may inp (Z.min (Z.of_nat (sum_nat ls)) (s_len inp)) out (Z.min (Z.of_nat (length ls)) (s_len out)))
     (~ (Z.of_nat (sum_nat ls) <= s_len inp /\ Z.of_nat (length ls) <= s_len out)) p m
     (fun a m1 => (Z.of_nat (sum_nat ls) <= s_len inp /\ Z.of_nat (length ls) <= s_len out) /\ a = v /\ m1 = rmem m out R) ->
  decodes p inp ls out m v R.
Proof. intros Hv E H. apply decodes_at_decodes; [done|done|]. by apply wp_decides in H. Qed.
Lemma enc_data_le xs n : Z.of_nat (length xs) <= n -> zlen (enc_data xs) <= 4 * n.
Proof. intros. pose proof (enc_data_bounds xs). unfold zlen. lia. Qed.

Lemma enc_reach_ge n inp out D D' : (n <= s_len inp -> D = D') -> zlen D' <= 4 * n ->
  Z.min (zlen D') (s_len out) <= enc_reach n inp out D.
Proof. intros H1 H2. unfold enc_reach. destruct (Z.leb_spec n (s_len inp)) as [E|E]; [rewrite H1 by done|]; unfold zlen in *; lia. Qed.
Ltac foot := cbn; unfold within, zlen in *; intros; (split; [done|]); lia.

(** ** C21: one group of four *)
Section scalar_put.
Context (inp out : slice) (m : mem) (Ht : typed m) (Hi : validW m inp) (Ho : validB m out).
Theorem C21_Put4 : encodes (Put4uint32Scalar inp out) inp 4 out m (ctrl_of (take 4 (words m inp))) (enc_data (take 4 (words m inp))).
Proof.
  set (xs := sub (s_off inp) 4 (blk (mw m) (s_blk inp))).
  assert (E : 4 <= s_len inp -> take 4 (words m inp) = xs) by (intros; unfold xs; rewrite sub_words by lia; done).
  assert (L8 : zlen (enc_data xs) <= 4 * 4) by (apply enc_data_le; unfold xs, sub; rewrite take_length; lia).
  pose proof (enc_reach_ge 4 inp out _ (enc_data xs) (fun H => f_equal enc_data (E H)) L8) as R8.
  eapply encodes_intro with (D' := enc_data xs); [done|intros; by rewrite E|].
  apply wp_Put4uint32Scalar; fold xs; [apply Hi|apply Ho|by apply typed_blk_w| | |].
  - intros H4. split; [foot|]. foot.
  - intros H4 H5. rewrite E by done. done.
  - intros H5 [H6 H7]. rewrite E in H7 by done. unfold zlen in *. lia.
Qed.
Theorem C21_Put4Delta prev : encodes (Put4uint32DeltaScalar inp out prev) inp 4 out m
  (ctrl_of (deltas prev (take 4 (words m inp)))) (enc_data (deltas prev (take 4 (words m inp)))).
Proof.
  set (xs := deltas prev (sub (s_off inp) 4 (blk (mw m) (s_blk inp)))).
  assert (E : 4 <= s_len inp -> deltas prev (take 4 (words m inp)) = xs) by (intros; unfold xs; rewrite sub_words by lia; done).
  assert (L8 : zlen (enc_data xs) <= 4 * 4) by (apply enc_data_le; unfold xs, sub; rewrite deltas_length, take_length; lia).
  pose proof (enc_reach_ge 4 inp out _ (enc_data xs) (fun H => f_equal enc_data (E H)) L8) as R8.
  eapply encodes_intro with (D' := enc_data xs); [done|intros; by rewrite E|].
  apply wp_Put4uint32DeltaScalar; fold xs; [apply Hi|apply Ho| | |].
  - intros H4. split; [foot|]. foot.
  - intros H4 H5. rewrite E by done. done.
  - intros H5 [H6 H7]. rewrite E in H7 by done. unfold zlen in *. lia.
Qed.

(** ** C20: up to four numbers *)
(** The number of elements processed. *)
Definition clipped (count : Z) : Z := Z.max 0 (Z.min count 4).
Theorem C20_Put count : encodes (PutUint32Scalar inp out count) inp (clipped count) out m
  (ctrl_of (take (Z.to_nat (clipped count)) (words m inp))) (enc_data (take (Z.to_nat (clipped count)) (words m inp))).
Proof.
  set (n := clipped count). set (xs := sub (s_off inp) n (blk (mw m) (s_blk inp))). assert (Hn : 0 <= n <= 4) by (unfold n, clipped; lia).
  assert (E : n <= s_len inp -> take (Z.to_nat n) (words m inp) = xs) by (intros; unfold xs; rewrite sub_words by lia; done).
  assert (L8 : zlen (enc_data xs) <= 4 * n) by (apply enc_data_le; unfold xs, sub; rewrite take_length; lia).
  pose proof (enc_reach_ge n inp out _ (enc_data xs) (fun H => f_equal enc_data (E H)) L8) as R8.
  eapply encodes_intro with (D' := enc_data xs); [done|intros; by rewrite E|].
  apply wp_PutUint32Scalar; change (clip count) with n; fold xs; [apply Hi|apply Ho|by apply typed_blk_w| | | |].
  - foot.
  - foot.
  - intros H4 H5. rewrite E by done. done.
  - intros H5 [H6 H7]. rewrite E in H7 by done. unfold zlen in *. lia.
Qed.
Theorem C20_PutDelta count prev : encodes (PutUint32DeltaScalar inp out count prev) inp (clipped count) out m
  (ctrl_of (deltas prev (take (Z.to_nat (clipped count)) (words m inp)))) (enc_data (deltas prev (take (Z.to_nat (clipped count)) (words m inp)))).
Proof.
  set (n := clipped count). set (xs := deltas prev (sub (s_off inp) n (blk (mw m) (s_blk inp)))). assert (Hn : 0 <= n <= 4) by (unfold n, clipped; lia).
  assert (E : n <= s_len inp -> deltas prev (take (Z.to_nat n) (words m inp)) = xs) by (intros; unfold xs; rewrite sub_words by lia; done).
  assert (L8 : zlen (enc_data xs) <= 4 * n) by (apply enc_data_le; unfold xs, sub; rewrite deltas_length, take_length; lia).
  pose proof (enc_reach_ge n inp out _ (enc_data xs) (fun H => f_equal enc_data (E H)) L8) as R8.
  eapply encodes_intro with (D' := enc_data xs); [done|intros; by rewrite E|].
  apply wp_PutUint32DeltaScalar; change (clip count) with n; fold xs; [apply Hi|apply Ho| | | |].
  - foot.
  - foot.
  - intros H4 H5. rewrite E by done. done.
  - intros H5 [H6 H7]. rewrite E in H7 by done. unfold zlen in *. lia.
Qed.

(** Eight numbers, portable code (used by C15 and C18). *)
Lemma Put8Scalar_at : encodes_at (Put8uint32Scalar inp out) inp 8 out m (ctrl8_of (take 8 (words m inp))) (enc_data (take 8 (words m inp))).
Proof.
  set (xs := sub (s_off inp) 8 (blk (mw m) (s_blk inp))).
  assert (E : 8 <= s_len inp -> take 8 (words m inp) = xs) by (intros; unfold xs; rewrite sub_words by lia; done).
  assert (L8 : zlen (enc_data xs) <= 4 * 8) by (apply enc_data_le; unfold xs, sub; rewrite take_length; lia).
  pose proof (enc_reach_ge 8 inp out _ (enc_data xs) (fun H => f_equal enc_data (E H)) L8) as R8.
  eapply encodes_at_intro with (D' := enc_data xs); [intros; by rewrite E|].
  apply wp_Put8uint32Scalar; fold xs; [apply Hi|apply Ho|by apply typed_blk_w| | | |].
  - foot.
  - foot.
  - intros H4 H5. rewrite E by done. done.
  - intros H5 [H6 H7]. rewrite E in H7 by done. unfold zlen in *. lia.
Qed.
Lemma Put8DeltaScalar_at prev : encodes_at (Put8uint32DeltaScalar inp out prev) inp 8 out m
  (ctrl8_of (deltas prev (take 8 (words m inp)))) (enc_data (deltas prev (take 8 (words m inp)))).
Proof.
  set (xs := deltas prev (sub (s_off inp) 8 (blk (mw m) (s_blk inp)))).
  assert (E : 8 <= s_len inp -> deltas prev (take 8 (words m inp)) = xs) by (intros; unfold xs; rewrite sub_words by lia; done).
  assert (L8 : zlen (enc_data xs) <= 4 * 8) by (apply enc_data_le; unfold xs, sub; rewrite deltas_length, take_length; lia).
  pose proof (enc_reach_ge 8 inp out _ (enc_data xs) (fun H => f_equal enc_data (E H)) L8) as R8.
  eapply encodes_at_intro with (D' := enc_data xs); [intros; by rewrite E|].
  apply wp_Put8uint32DeltaScalar; fold xs; [apply Hi|apply Ho| | | |].
  - foot.
  - foot.
  - intros H4 H5. rewrite E by done. done.
  - intros H5 [H6 H7]. rewrite E in H7 by done. unfold zlen in *. lia.
Qed.
Theorem C15_Put8Scalar : encodes (Put8uint32Scalar inp out) inp 8 out m (ctrl8_of (take 8 (words m inp))) (enc_data (take 8 (words m inp))).
Proof. apply encodes_at_encodes; [done|apply Put8Scalar_at]. Qed.
Theorem C15_Put8DeltaScalar prev : encodes (Put8uint32DeltaScalar inp out prev) inp 8 out m
  (ctrl8_of (deltas prev (take 8 (words m inp)))) (enc_data (deltas prev (take 8 (words m inp)))).
Proof. apply encodes_at_encodes; [done|apply Put8DeltaScalar_at]. Qed.
End scalar_put.

Section scalar_get.
Context (inp out : slice) (m : mem) (Ht : typed m) (Hi : validB m inp) (Ho : validW m out).
Theorem C21_Get4 c : is_byte c -> decodes (Get4uint32Scalar inp out c) inp (ctrl_lens c) out m tt (numbers (ctrl_lens c) (bytes m inp)).
Proof.
  intros Hc. eapply decodes_intro; [done|by rewrite numbers_length|].
  apply wp_Get4uint32Scalar; [done|apply Hi|apply Ho|by apply typed_blk_b| | | |].
  - foot.
  - rewrite ctrl_lens_length. foot.
  - intros H1 H2. unfold nums4. rewrite numbers_bytes by done. rewrite ctrl_lens_length. done.
  - rewrite ctrl_lens_length. lia.
Qed.
Theorem C21_Get4Delta c prev : is_byte c -> decodes (Get4uint32DeltaScalar inp out c prev) inp (ctrl_lens c) out m tt
  (running_sums prev (numbers (ctrl_lens c) (bytes m inp))).
Proof.
  intros Hc. eapply decodes_intro; [done|by rewrite running_sums_length, numbers_length|].
  apply wp_Get4uint32DeltaScalar; [done|apply Hi|apply Ho|by apply typed_blk_b| | | |].
  - foot.
  - rewrite ctrl_lens_length. intros. split; revert H H0; foot.
  - intros H1 H2. unfold nums4. rewrite numbers_bytes by done. rewrite ctrl_lens_length. done.
  - rewrite ctrl_lens_length. lia.
Qed.
Lemma clipped_lens c count : length (take (Z.to_nat (clipped count)) (ctrl_lens c)) = Z.to_nat (clipped count).
Proof. rewrite take_length, ctrl_lens_length. unfold clipped. lia. Qed.
Theorem C20_Get c count : is_byte c -> let ls := take (Z.to_nat (clipped count)) (ctrl_lens c) in
  decodes (GetUint32Scalar inp out c count) inp ls out m (Z.of_nat (sum_nat ls)) (numbers ls (bytes m inp)).
Proof.
  intros Hc ls. pose proof (clipped_lens c count) as Hl. fold ls in Hl. assert (Hn : 0 <= clipped count <= 4) by (unfold clipped; lia).
  eapply decodes_intro; [done|by rewrite numbers_length|]. rewrite Hl, Z2Nat.id by lia.
  apply wp_GetUint32Scalar; [done|apply Hi|apply Ho|by apply typed_blk_b| | | |].
  - change (sizek c (Z.to_nat (clip count))) with (Z.of_nat (sum_nat ls)). foot.
  - change (clip count) with (clipped count). foot.
  - intros H1 H2. unfold numsk. change (sizek c (Z.to_nat (clip count))) with (Z.of_nat (sum_nat ls)) in *.
    change (take (Z.to_nat (clip count)) (ctrl_lens c)) with ls. rewrite numbers_bytes by done. done.
  - change (sizek c (Z.to_nat (clip count))) with (Z.of_nat (sum_nat ls)). change (clip count) with (clipped count). lia.
Qed.
Theorem C20_GetDelta c count prev : is_byte c -> let ls := take (Z.to_nat (clipped count)) (ctrl_lens c) in
  decodes (GetUint32DeltaScalar inp out c count prev) inp ls out m (Z.of_nat (sum_nat ls)) (running_sums prev (numbers ls (bytes m inp))).
Proof.
  intros Hc ls. pose proof (clipped_lens c count) as Hl. fold ls in Hl. assert (Hn : 0 <= clipped count <= 4) by (unfold clipped; lia).
  eapply decodes_intro; [done|by rewrite running_sums_length, numbers_length|]. rewrite Hl, Z2Nat.id by lia.
  apply wp_GetUint32DeltaScalar; [done|apply Hi|apply Ho|by apply typed_blk_b| | | |].
  - change (sizek c (Z.to_nat (clip count))) with (Z.of_nat (sum_nat ls)). foot.
  - change (clip count) with (clipped count). foot.
  - intros H1 H2. unfold numsk. change (sizek c (Z.to_nat (clip count))) with (Z.of_nat (sum_nat ls)) in *.
    change (take (Z.to_nat (clip count)) (ctrl_lens c)) with ls. rewrite numbers_bytes by done. done.
  - change (sizek c (Z.to_nat (clip count))) with (Z.of_nat (sum_nat ls)). change (clip count) with (clipped count). lia.
Qed.
Lemma u16_parts c : is_u16 c -> is_byte (c mod 256) /\ is_byte (c / 256) /\ c = c mod 256 + 256 * (c / 256).
Proof. unfold is_u16, is_byte. intros. Z.to_euclidean_division_equations; lia. Qed.
Lemma Get8Scalar_parts c0 c1 : is_byte c0 -> is_byte c1 -> let ls := ctrl_lens c0 ++ ctrl_lens c1 in
  decodes_at (Get8uint32Scalar inp out (c0 + 256 * c1)) inp ls out m tt (numbers ls (bytes m inp)).
Proof.
  intros H0 H1 ls. apply wp_decides.
  assert (L : length ls = 8%nat) by done. rewrite L.
  apply wp_Get8uint32Scalar; [done|done|apply Hi|apply Ho|by apply typed_blk_b| | | |]; fold ls.
  - foot.
  - foot.
  - intros H2 H3. unfold nums8. fold ls. rewrite numbers_bytes by done. done.
  - lia.
Qed.
Lemma Get8DeltaScalar_parts c0 c1 prev : is_byte c0 -> is_byte c1 -> let ls := ctrl_lens c0 ++ ctrl_lens c1 in
  decodes_at (Get8uint32DeltaScalar inp out (c0 + 256 * c1) prev) inp ls out m tt (running_sums prev (numbers ls (bytes m inp))).
Proof.
  intros H0 H1 ls. apply wp_decides.
  assert (L : length ls = 8%nat) by done. rewrite L.
  apply wp_Get8uint32DeltaScalar; [done|done|apply Hi|apply Ho|by apply typed_blk_b| | | |]; fold ls.
  - foot.
  - intros. split; revert H H2; foot.
  - intros H2 H3. unfold nums8. fold ls. rewrite numbers_bytes by done. done.
  - lia.
Qed.
Lemma Get8Scalar_at c : is_u16 c -> decodes_at (Get8uint32Scalar inp out c) inp (ctrl8_lens c) out m tt (numbers (ctrl8_lens c) (bytes m inp)).
Proof. intros Hc. destruct (u16_parts c Hc) as (H0 & H1 & E). pose proof (Get8Scalar_parts _ _ H0 H1) as W. rewrite <- E in W. exact W. Qed.
Lemma Get8DeltaScalar_at c prev : is_u16 c -> decodes_at (Get8uint32DeltaScalar inp out c prev) inp (ctrl8_lens c) out m tt
  (running_sums prev (numbers (ctrl8_lens c) (bytes m inp))).
Proof. intros Hc. destruct (u16_parts c Hc) as (H0 & H1 & E). pose proof (Get8DeltaScalar_parts _ _ prev H0 H1) as W. rewrite <- E in W. exact W. Qed.
Theorem C16_Get8Scalar c : is_u16 c -> decodes (Get8uint32Scalar inp out c) inp (ctrl8_lens c) out m tt (numbers (ctrl8_lens c) (bytes m inp)).
Proof. intros. apply decodes_at_decodes; [done|by rewrite numbers_length|by apply Get8Scalar_at]. Qed.
Theorem C16_Get8DeltaScalar c prev : is_u16 c -> decodes (Get8uint32DeltaScalar inp out c prev) inp (ctrl8_lens c) out m tt
  (running_sums prev (numbers (ctrl8_lens c) (bytes m inp))).
Proof. intros. apply decodes_at_decodes; [done|by rewrite running_sums_length, numbers_length|by apply Get8DeltaScalar_at]. Qed.
End scalar_get.

(** ** C13: wrong arguments lead to a panic at worst *)
Lemma encodes_safe p inp n out m c D : 0 <= n -> encodes p inp n out m c D ->
  returns_or_panics p m /\ accesses p m (encoder_may inp (s_len inp) out (s_len out)).
Proof.
  intros Hn (H1 & H2 & H3). split.
  - eapply (decides_rp _ p m); [|intros Hok; destruct (H1 Hok) as (m' & Hr & _); by exists c, m'|exact H2].
    unfold zlen in *. lia.
  - eapply Forall_impl; [exact H3|]. intros e. apply encoder_may_mono; unfold enc_reach; lia.
Qed.
Lemma decodes_safe {A} (p : prog A) inp ls out m v R : decodes p inp ls out m v R ->
  returns_or_panics p m /\ accesses p m (reader_may inp (s_len inp) out (s_len out)).
Proof.
  intros (H1 & H2 & H3). split.
  - eapply (decides_rp _ p m); [|intros Hok; destruct (H1 Hok) as (m' & Hr & _); by exists v, m'|exact H2]. lia.
  - eapply Forall_impl; [exact H3|]. intros e. apply reader_may_mono; lia.
Qed.
Theorem C13_encoders inp out m : typed m -> validW m inp -> validB m out -> forall count prev p,
  In p [PutUint32Scalar inp out count; PutUint32DeltaScalar inp out count prev; Put4uint32Scalar inp out;
        Put4uint32DeltaScalar inp out prev; Put8uint32Scalar inp out; Put8uint32DeltaScalar inp out prev] ->
  returns_or_panics p m /\ accesses p m (encoder_may inp (s_len inp) out (s_len out)).
Proof.
  intros Ht Hi Ho count prev p [<-|[<-|[<-|[<-|[<-|[<-|[]]]]]]].
  - eapply encodes_safe; [|by apply C20_Put]; unfold clipped; lia.
  - eapply encodes_safe; [|by apply C20_PutDelta]; unfold clipped; lia.
  - eapply encodes_safe; [|by apply C21_Put4]; lia.
  - eapply encodes_safe; [|by apply C21_Put4Delta]; lia.
  - eapply encodes_safe; [|by apply C15_Put8Scalar]; lia.
  - eapply encodes_safe; [|by apply C15_Put8DeltaScalar]; lia.
Qed.
Theorem C13_decoders inp out m : typed m -> validB m inp -> validW m out -> forall c c8 prev p, is_byte c -> is_u16 c8 ->
  In p [Get4uint32Scalar inp out c; Get4uint32DeltaScalar inp out c prev; Get8uint32Scalar inp out c8; Get8uint32DeltaScalar inp out c8 prev] ->
  returns_or_panics p m /\ accesses p m (reader_may inp (s_len inp) out (s_len out)).
Proof.
  intros Ht Hi Ho c c8 prev p Hc Hc8 [<-|[<-|[<-|[<-|[]]]]]; eapply decodes_safe.
  - by apply C21_Get4.
  - by apply C21_Get4Delta.
  - by apply C16_Get8Scalar.
  - by apply C16_Get8DeltaScalar.
Qed.
Theorem C13_GetUint32 inp out m : typed m -> validB m inp -> validW m out -> forall c count prev p, is_byte c ->
  In p [GetUint32Scalar inp out c count; GetUint32DeltaScalar inp out c count prev] ->
  returns_or_panics p m /\ accesses p m (reader_may inp (s_len inp) out (s_len out)).
Proof.
  intros Ht Hi Ho c count prev p Hc [<-|[<-|[]]]; eapply decodes_safe.
  - by apply C20_Get.
  - by apply C20_GetDelta.
Qed.

(** ** Round trips of C20 and C21 *)
(** Numbers encoded with the given byte lengths come back, whatever follows. *)
Lemma numbers_enc xs S : Forall is_u32 xs -> take (length (enc_data xs)) S = enc_data xs -> numbers (map nbytes xs) S = xs.
Proof.
  intros Hx HS. unfold numbers. rewrite <- (take_drop (length (enc_data xs)) S), HS, cut_enc_data.
  clear -Hx. induction Hx as [|x xs H _ IH]; [done|]. cbn. by rewrite enc1_val, IH.
Qed.
Lemma take_words_length m s n : fits (mw m) s -> 0 <= n <= s_len s -> length (take (Z.to_nat n) (words m s)) = Z.to_nat n.
Proof. intros H Hn. rewrite take_length. unfold words. rewrite contents_length by done. lia. Qed.
Lemma take_prefix_length {A} (l D : list A) : take (length D) l = D -> (length D <= length l)%nat.
Proof. intros H. rewrite <- H at 1. rewrite take_length. lia. Qed.
Lemma take4_map {A B} (f : A -> B) n l : take n (map f l) = map f (take n l).
Proof. revert l. induction n; intros [|x l]; cbn; [done..|by rewrite IHn]. Qed.

(** Any slice (in any memory) that starts with the encoded bytes of up to four
    numbers decodes to these numbers. *)
Theorem C20_Get_inverts : forall (xs : list Z) inp out m, typed m -> validB m inp -> validW m out -> Forall is_u32 xs -> (length xs <= 4)%nat ->
  take (length (enc_data xs)) (bytes m inp) = enc_data xs -> Z.of_nat (length xs) <= s_len out -> forall count, clipped count = Z.of_nat (length xs) ->
  exists m', returns (GetUint32Scalar inp out (ctrl_of xs) count) m (Z.of_nat (length (enc_data xs))) m' /\ stores_words m m' out xs.
Proof.
  intros xs inp out m Ht Hi Ho Hx H4 HS Hout count Hc.
  destruct (C20_Get inp out m Ht Hi Ho (ctrl_of xs) count (ctrl_of_byte _ H4)) as (H1 & _). rewrite Hc, Nat2Z.id, ctrl_lens_of in H1 by done.
  rewrite numbers_enc, <- enc_data_length in H1 by done. rewrite map_length in H1. apply H1. split; [|done].
  apply take_prefix_length in HS. unfold bytes in HS. rewrite contents_length in HS by apply Hi. destruct Hi as [(? & ? & ?) ?]. lia.
Qed.
Theorem C20_GetDelta_inverts : forall prev (xs : list Z) inp out m, typed m -> validB m inp -> validW m out -> Forall is_u32 xs -> (length xs <= 4)%nat ->
  let D := enc_data (deltas prev xs) in
  take (length D) (bytes m inp) = D -> Z.of_nat (length xs) <= s_len out -> forall count, clipped count = Z.of_nat (length xs) ->
  exists m', returns (GetUint32DeltaScalar inp out (ctrl_of (deltas prev xs)) count prev) m (Z.of_nat (length D)) m' /\ stores_words m m' out xs.
Proof.
  intros prev xs inp out m Ht Hi Ho Hx H4 D HS Hout count Hc. assert (H4' : (length (deltas prev xs) <= 4)%nat) by (by rewrite deltas_length).
  destruct (C20_GetDelta inp out m Ht Hi Ho (ctrl_of (deltas prev xs)) count prev (ctrl_of_byte _ H4')) as (H1 & _).
  rewrite Hc, Nat2Z.id, <- (deltas_length prev xs), ctrl_lens_of in H1 by done.
  rewrite numbers_enc, <- enc_data_length, running_sums_deltas in H1 by (done || apply deltas_u32). rewrite map_length, deltas_length in H1. apply H1. split; [|done].
  apply take_prefix_length in HS. unfold bytes in HS. rewrite contents_length in HS by apply Hi. destruct Hi as [(? & ? & ?) ?]. unfold D in *. lia.
Qed.
(** The same for full groups. *)
Theorem C21_Get4_inverts : forall (xs : list Z) inp out m, typed m -> validB m inp -> validW m out -> Forall is_u32 xs -> length xs = 4%nat ->
  take (length (enc_data xs)) (bytes m inp) = enc_data xs -> 4 <= s_len out ->
  exists m', returns (Get4uint32Scalar inp out (ctrl_of xs)) m tt m' /\ stores_words m m' out xs.
Proof.
  intros xs inp out m Ht Hi Ho Hx H4 HS Hout.
  destruct (C21_Get4 inp out m Ht Hi Ho (ctrl_of xs) (ctrl_of_byte xs ltac:(lia))) as (H1 & _).
  assert (E : ctrl_lens (ctrl_of xs) = map nbytes xs) by (rewrite <- ctrl_lens_of by lia; rewrite H4; done). rewrite E in H1.
  rewrite numbers_enc, <- enc_data_length in H1 by done. rewrite map_length in H1. apply H1. split; [|lia].
  apply take_prefix_length in HS. unfold bytes in HS. rewrite contents_length in HS by apply Hi. destruct Hi as [(? & ? & ?) ?]. lia.
Qed.
Theorem C21_Get4Delta_inverts : forall prev (xs : list Z) inp out m, typed m -> validB m inp -> validW m out -> Forall is_u32 xs -> length xs = 4%nat ->
  let D := enc_data (deltas prev xs) in
  take (length D) (bytes m inp) = D -> 4 <= s_len out ->
  exists m', returns (Get4uint32DeltaScalar inp out (ctrl_of (deltas prev xs)) prev) m tt m' /\ stores_words m m' out xs.
Proof.
  intros prev xs inp out m Ht Hi Ho Hx H4 D HS Hout. assert (H4' : length (deltas prev xs) = 4%nat) by (by rewrite deltas_length).
  destruct (C21_Get4Delta inp out m Ht Hi Ho (ctrl_of (deltas prev xs)) prev (ctrl_of_byte (deltas prev xs) ltac:(lia))) as (H1 & _).
  assert (E : ctrl_lens (ctrl_of (deltas prev xs)) = map nbytes (deltas prev xs)) by (rewrite <- ctrl_lens_of by lia; rewrite H4'; done). rewrite E in H1.
  rewrite numbers_enc, <- enc_data_length, running_sums_deltas in H1 by (done || apply deltas_u32). rewrite map_length, deltas_length in H1. apply H1. split; [|lia].
  apply take_prefix_length in HS. unfold bytes in HS. rewrite contents_length in HS by apply Hi. destruct Hi as [(? & ? & ?) ?]. unfold D in *. lia.
Qed.

(** Encoding, then decoding from the same buffer. *)
Lemma stores_bytes_valid m m' s D s' : stores_bytes m m' s D -> validB m s' -> validB m' s'.
Proof.
  intros (_ & (H1 & H2 & _) & _) [(A1 & A2 & A3) Hc]. split; [|done]. split; [done|]. split; [done|].
  destruct (decide (s_blk s' = s_blk s)) as [E|E]; [rewrite E in *; by rewrite H2|by rewrite H1].
Qed.
Lemma stores_bytes_validW m m' s D s' : stores_bytes m m' s D -> validW m s' -> validW m' s'.
Proof. intros (H & _). unfold validW, fits. by rewrite H. Qed.
Lemma bmem_stores_typed m out D : validB m out -> Z.of_nat (length D) <= s_len out -> typed m -> Forall is_byte D -> typed (bmem m out D).
Proof. intros. by apply bmem_typed. Qed.
Lemma stores_bytes_typed m m' s D : typed m -> validB m s -> Z.of_nat (length D) <= s_len s -> stores_bytes m m' s D -> Forall is_byte D -> typed m'.
Proof.
  intros [Tb Tw] [(A1 & A2 & A3) _] HD (H0 & (H1 & H2 & H3) & H4) HB. split; [|by rewrite H0].
  intros b l Hl. destruct (decide (b = s_blk s)) as [->|E]; [|rewrite H1 in Hl by done; by eapply Tb].
  apply Forall_lookup. intros i x Hx. destruct (decide (s_off s <= Z.of_nat i < s_off s + Z.of_nat (length D))) as [Hi|Hi].
  - rewrite bytes_sub in H4. unfold sub, blk in H4. rewrite Hl in H4. cbn in H4. rewrite take_take in H4.
    assert (Hx' : D !! (i - Z.to_nat (s_off s))%nat = Some x).
    { rewrite <- H4. rewrite lookup_take by lia. rewrite lookup_drop. rewrite <- Hx. f_equal. lia. }
    eapply Forall_lookup in HB; done.
  - specialize (H3 (Z.of_nat i) Hi). unfold hget in H3. rewrite Hl in H3.
    destruct (Z.leb_spec 0 (Z.of_nat i)); [|lia]. cbn in H3. rewrite Nat2Z.id in H3.
    destruct (mb m !! s_blk s) as [l0|] eqn:E0; cbn in H3; [|by rewrite Hx in H3].
    rewrite Hx in H3. specialize (Tb _ _ E0). eapply Forall_lookup; [exact Tb|by symmetry].
Qed.
Theorem C20_round_trip : forall inp buf out m count, typed m -> validW m inp -> validB m buf -> validW m out ->
  let xs := take (Z.to_nat (clipped count)) (words m inp) in
  clipped count <= s_len inp -> clipped count <= s_len out -> Z.of_nat (length (enc_data xs)) <= s_len buf ->
  exists m1 m', returns (PutUint32Scalar inp buf count) m (ctrl_of xs) m1 /\
    returns (GetUint32Scalar buf out (ctrl_of xs) count) m1 (Z.of_nat (length (enc_data xs))) m' /\
    take (Z.to_nat (clipped count)) (words m' out) = xs.
Proof.
  intros inp buf out m count Ht Hi Hb Ho xs L1 L2 L3. assert (Hn : 0 <= clipped count <= 4) by (unfold clipped; lia).
  assert (Hl : length xs = Z.to_nat (clipped count)) by (apply take_words_length; [apply Hi|lia]).
  destruct (C20_Put inp buf m Ht Hi Hb count) as (H1 & _). destruct (H1 (conj L1 L3)) as (m1 & R1 & S1). fold xs in R1, S1.
  destruct (C20_Get_inverts xs buf out m1) with (count := count) as (m' & R2 & S2).
  - eapply stores_bytes_typed; [done..|apply enc_data_bytes].
  - by eapply stores_bytes_valid.
  - by eapply stores_bytes_validW.
  - apply Forall_take. by apply typed_words.
  - lia.
  - apply S1.
  - lia.
  - lia.
  - exists m1, m'. split; [done|]. split; [done|]. rewrite <- Hl. apply S2.
Qed.
Theorem C20_delta_round_trip : forall inp buf out m count prev, typed m -> validW m inp -> validB m buf -> validW m out ->
  let xs := take (Z.to_nat (clipped count)) (words m inp) in let D := enc_data (deltas prev xs) in
  clipped count <= s_len inp -> clipped count <= s_len out -> Z.of_nat (length D) <= s_len buf ->
  exists m1 m', returns (PutUint32DeltaScalar inp buf count prev) m (ctrl_of (deltas prev xs)) m1 /\
    returns (GetUint32DeltaScalar buf out (ctrl_of (deltas prev xs)) count prev) m1 (Z.of_nat (length D)) m' /\
    take (Z.to_nat (clipped count)) (words m' out) = xs.
Proof.
  intros inp buf out m count prev Ht Hi Hb Ho xs D L1 L2 L3. assert (Hn : 0 <= clipped count <= 4) by (unfold clipped; lia).
  assert (Hl : length xs = Z.to_nat (clipped count)) by (apply take_words_length; [apply Hi|lia]).
  destruct (C20_PutDelta inp buf m Hi Hb count prev) as (H1 & _). destruct (H1 (conj L1 L3)) as (m1 & R1 & S1). fold xs in R1, S1. fold D in S1.
  destruct (C20_GetDelta_inverts prev xs buf out m1) with (count := count) as (m' & R2 & S2).
  - eapply stores_bytes_typed; [done..|apply enc_data_bytes].
  - by eapply stores_bytes_valid.
  - by eapply stores_bytes_validW.
  - apply Forall_take. by apply typed_words.
  - lia.
  - apply S1.
  - lia.
  - lia.
  - exists m1, m'. split; [done|]. split; [done|]. rewrite <- Hl. apply S2.
Qed.
Theorem C21_round_trip : forall inp buf out m, typed m -> validW m inp -> validB m buf -> validW m out ->
  let xs := take 4 (words m inp) in
  4 <= s_len inp -> 4 <= s_len out -> Z.of_nat (length (enc_data xs)) <= s_len buf ->
  exists m1 m', returns (Put4uint32Scalar inp buf) m (ctrl_of xs) m1 /\
    returns (Get4uint32Scalar buf out (ctrl_of xs)) m1 tt m' /\ take 4 (words m' out) = xs.
Proof.
  intros inp buf out m Ht Hi Hb Ho xs L1 L2 L3.
  assert (Hl : length xs = 4%nat) by (apply (take_words_length m inp 4); [apply Hi|lia]).
  destruct (C21_Put4 inp buf m Ht Hi Hb) as (H1 & _). destruct (H1 (conj L1 L3)) as (m1 & R1 & S1). fold xs in R1, S1.
  destruct (C21_Get4_inverts xs buf out m1) as (m' & R2 & S2).
  - eapply stores_bytes_typed; [done..|apply enc_data_bytes].
  - by eapply stores_bytes_valid.
  - by eapply stores_bytes_validW.
  - apply Forall_take. by apply typed_words.
  - lia.
  - apply S1.
  - lia.
  - exists m1, m'. split; [done|]. split; [done|]. rewrite <- Hl at 1. apply S2.
Qed.
Theorem C21_delta_round_trip : forall inp buf out m prev, typed m -> validW m inp -> validB m buf -> validW m out ->
  let xs := take 4 (words m inp) in let D := enc_data (deltas prev xs) in
  4 <= s_len inp -> 4 <= s_len out -> Z.of_nat (length D) <= s_len buf ->
  exists m1 m', returns (Put4uint32DeltaScalar inp buf prev) m (ctrl_of (deltas prev xs)) m1 /\
    returns (Get4uint32DeltaScalar buf out (ctrl_of (deltas prev xs)) prev) m1 tt m' /\ take 4 (words m' out) = xs.
Proof.
  intros inp buf out m prev Ht Hi Hb Ho xs D L1 L2 L3.
  assert (Hl : length xs = 4%nat) by (apply (take_words_length m inp 4); [apply Hi|lia]).
  destruct (C21_Put4Delta inp buf m Hi Hb prev) as (H1 & _). destruct (H1 (conj L1 L3)) as (m1 & R1 & S1). fold xs in R1, S1. fold D in S1.
  destruct (C21_Get4Delta_inverts prev xs buf out m1) as (m' & R2 & S2).
  - eapply stores_bytes_typed; [done..|apply enc_data_bytes].
  - by eapply stores_bytes_valid.
  - by eapply stores_bytes_validW.
  - apply Forall_take. by apply typed_words.
  - lia.
  - apply S1.
  - lia.
  - exists m1, m'. split; [done|]. split; [done|]. rewrite <- Hl at 1. apply S2.
Qed.

(** ** Concrete cases *)
(** A count of 9 is 4; 9 bytes are written, 10 + 4 exist. *)
Example C20_case : clipped 9 <= s_len ex_in /\ clipped 9 <= s_len ex_out /\
  Z.of_nat (length (enc_data (take (Z.to_nat (clipped 9)) (words ex_mem ex_in)))) <= s_len ex_buf.
Proof. vm_compute. intuition discriminate. Qed.
Example C20_case_result :
  let r := run (PutUint32Scalar ex_in ex_buf 9) ex_mem in
  result r = Ok 228 /\ take 11 (bytes (final r) ex_buf) = [5; 44; 1; 112; 17; 1; 255; 255; 255; 255; 170] /\
  result (run (PutUint32Scalar ex_in ex_buf (-3)) ex_mem) = Ok 0 /\
  result (run (PutUint32Scalar ex_in (Slice 5 0 9 60) 4) ex_mem) = Panicked /\
  result (run (GetUint32Scalar ex_st ex_out 228 3) ex_mem) = Ok 6.
Proof. by vm_compute. Qed.
Example C21_case : 4 <= s_len ex_in /\ 4 <= s_len ex_out /\
  Z.of_nat (length (enc_data (deltas 77 (take 4 (words ex_mem ex_in))))) <= s_len ex_buf.
Proof. vm_compute. intuition discriminate. Qed.
Example C21_case_result :
  let r := run (Put4uint32DeltaScalar ex_in ex_buf 77) ex_mem in
  result r = Ok (ctrl_of (deltas 77 [5; 300; 70000; 4294967295])) /\
  take 12 (words (final (run (Get4uint32DeltaScalar ex_buf ex_out (ctrl_of (deltas 77 [5; 300; 70000; 4294967295])) 77) (final r))) ex_out)
  = [5; 300; 70000; 4294967295] ++ replicate 8 7.
Proof. by vm_compute. Qed.
Example C13_case : result (run (Put8uint32Scalar (Slice 0 2 7 38) ex_buf) ex_mem) = Panicked /\
  result (run (Get8uint32Scalar ex_st ex_out 65535) ex_mem) = Panicked /\
  result (run (Get4uint32Scalar ex_st (Slice 1 3 3 50) 0) ex_mem) = Panicked.
Proof. by vm_compute. Qed.
