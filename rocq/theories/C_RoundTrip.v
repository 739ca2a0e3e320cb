(** * Stream round trips: C01, C02 *)
From stdpp Require Import prelude gmap list.
From Coq Require Import ZArith Lia.
From Verif Require Import Spec SpecLemmas GoSem Shared Tables Asm Encode Decode Wp Writer WriterProof WriterProof2 Reader ReaderProof ReaderProof2 ReaderProof3 Api ApiLemmas Witness C_Writer C_Reader.
Local Open Scope Z_scope.

Lemma rover_cap S n : 0 <= n -> rover S n <= rcl n + 4 * n.
Proof.
  intros Hn. pose proof (rcl_bounds n Hn). unfold rover.
  pose proof (rdp_bounds S n n ltac:(lia)). destruct (Z.leb_spec n 16); [lia|].
  assert (4 <= rlast8 n + 4 /\ rlast8 n + 8 <= n) by (unfold rlast8; rewrite rcl_eq by lia; Z.to_euclidean_division_equations; lia).
  pose proof (rdp_bounds S n (rlast8 n + 4) ltac:(lia)). lia.
Qed.

(** Reading from any slice with capacity for the largest stream of [n] numbers. *)
Section capacity.
Context (r : reader) (m : mem) (st out : slice) (n : Z).
Context (Ht : typed m) (Hs : validB m st) (Ho : validW m out) (Hn : 0 <= n <= s_len out).
Context (Hwf : well_formed (Z.to_nat n) (bytes m st)) (Hcap : (n + 3) / 4 + 4 * n <= s_cap st).
Lemma read_cap_run :
  returns (read r n st out) m tt (rmem m out (decode_stream (Z.to_nat n) (bytes m st))) /\
  accesses (read r n st out) m (reader_may st (s_cap st) out n).
Proof.
  pose proof (rover_cap (bytes m st) n ltac:(lia)) as Hc. rewrite rcl_eq in Hc by lia.
  assert (HSl : zlen (bytes m st) = s_len st) by (by apply contents_zlen, Hs). destruct Hs as [(S1 & S2 & S3) S4].
  assert (Hfa : is_simd r = true -> exists avx2, read r n st out = ReadAllFast (AMD64 true avx2) n st out)
    by (destruct r as [|b|[[] b|]]; intros E0; [discriminate|exists b; reflexivity|exists b; reflexivity|discriminate|discriminate]).
  destruct (is_simd r) eqn:E.
  - destruct (Hfa eq_refl) as [avx2 ->]. 
    destruct (ReadAllFast_run m st out n Ht Hs Ho avx2 Hn Hwf) as [G1 G2]; [unfold zlen, blk; lia|]. split; [done|].
    eapply Forall_impl; [exact G2|]. intros e. apply reader_may_mono; lia.
  - assert (Hroom : room r n st m). { unfold room, reach. rewrite E, Z.add_0_r. eapply fits_room; [apply Hs|done..]. }
    destruct (read_run r m st out n Ht Hs Ho Hn Hwf Hroom) as [G1 G2]. split; [done|].
    eapply Forall_impl; [exact G2|]. intros e. apply reader_may_mono; [|lia]. unfold reach. rewrite E.
    destruct Hwf as (_ & _ & H). unfold zlen in HSl. lia.
Qed.
Lemma read_delta_cap_run prev : is_u32 prev ->
  returns (read_delta r n st out prev) m tt (rmem m out (decode_stream_delta (Z.to_nat n) (bytes m st) prev)) /\
  accesses (read_delta r n st out prev) m (reader_may st (s_cap st) out n).
Proof.
  intros Hp. pose proof (rover_cap (bytes m st) n ltac:(lia)) as Hc. rewrite rcl_eq in Hc by lia.
  assert (HSl : zlen (bytes m st) = s_len st) by (by apply contents_zlen, Hs). destruct Hs as [(S1 & S2 & S3) S4].
  assert (Hfa : is_simd r = true -> exists avx2, read_delta r n st out prev = ReadAllDeltaFast (AMD64 true avx2) n st out prev)
    by (destruct r as [|b|[[] b|]]; intros E0; [discriminate|exists b; reflexivity|exists b; reflexivity|discriminate|discriminate]).
  destruct (is_simd r) eqn:E.
  - destruct (Hfa eq_refl) as [avx2 ->]. 
    destruct (ReadAllDeltaFast_run m st out n Ht Hs Ho avx2 prev Hp Hn Hwf) as [G1 G2]; [unfold zlen, blk; lia|]. split; [done|].
    eapply Forall_impl; [exact G2|]. intros e. apply reader_may_mono; lia.
  - assert (Hroom : room r n st m). { unfold room, reach. rewrite E, Z.add_0_r. eapply fits_room; [apply Hs|done..]. }
    destruct (read_delta_run r m st out n Ht Hs Ho Hn Hwf Hroom prev Hp) as [G1 G2]. split; [done|].
    eapply Forall_impl; [exact G2|]. intros e. apply reader_may_mono; [|lia]. unfold reach. rewrite E.
    destruct Hwf as (_ & _ & H). unfold zlen in HSl. lia.
Qed.
End capacity.

Lemma wmem_typed m B X : typed m -> typed (wmem m B X).
Proof.
  intros [H1 H2]. split; [|done]. intros b l. unfold wmem. cbn [mb]. rewrite lookup_insert_Some. intros [[_ <-]|[_ H]]; [|by eapply H1].
  apply Forall_app. split; [apply stream_of_bytes|]. apply Forall_replicate. unfold is_byte. lia.
Qed.
Lemma wmem_validB m B X : zlen X <= 2 ^ 52 -> validB (wmem m B X) (wret B X).
Proof.
  intros HX. split; [apply wmem_fits|]. cbn. unfold wN. rewrite wcl_eq.
  assert ((zlen X + 3) / 4 <= zlen X + 3) by (pose proof (zlen_nonneg X); apply Z.div_le_upper_bound; lia). lia.
Qed.

(** ** C01
    The stream may be read at any later time, in any memory [m2] in which the
    stream returned by the writer still has the bytes the writer left, by any
    implementation, into any sufficiently long [out] (even the original [in]);
    and the readers stay inside the capacity of the stream. *)
Theorem C01_round_trip : forall w r B inp m, typed m -> validW m inp -> mb m !! B = None ->
  exists st m1, returns (write w B inp) m st m1 /\ validB m1 st /\
  forall m2 out, typed m2 -> validB m2 st -> bytes m2 st = bytes m1 st -> validW m2 out -> s_len inp <= s_len out ->
  exists m3, returns (read r (s_len inp) st out) m2 tt m3 /\
    take (Z.to_nat (s_len inp)) (words m3 out) = words m inp /\
    accesses (read r (s_len inp) st out) m2 (reader_may st (s_cap st) out (s_len inp)).
Proof.
  intros w r B inp m Ht Hv Hf. set (X := words m inp). exists (wret B X), (wmem m B X).
  assert (HX : zlen X = s_len inp) by (by apply contents_zlen, Hv).
  assert (Hl : Z.to_nat (s_len inp) = length X) by (unfold zlen in HX; lia).
  split; [by apply write_run|]. destruct Hv as [(V1 & V2 & V3) V4]. split; [apply wmem_validB; lia|].
  intros m2 out Ht2 Hs2 Eb Ho2 Hlen. rewrite wmem_bytes in Eb.
  assert (Hwf : well_formed (Z.to_nat (s_len inp)) (bytes m2 (wret B X))).
  { rewrite Eb, Hl. pose proof (written_well_formed X [] ltac:(constructor)) as G. by rewrite app_nil_r in G. }
  assert (HD : decode_stream (Z.to_nat (s_len inp)) (bytes m2 (wret B X)) = X).
  { rewrite Eb, Hl. pose proof (decode_written X []) as G. rewrite app_nil_r in G. apply G. by apply typed_words. }
  destruct (read_cap_run r m2 (wret B X) out (s_len inp) Ht2 Hs2 Ho2 ltac:(lia) Hwf) as [G1 G2].
  { cbn. unfold wN. rewrite wcl_eq, HX. lia. }
  rewrite HD in G1. eexists. split; [exact G1|]. split; [|done]. apply rmem_take; [apply Ho2|done|lia].
Qed.
(** In one go, reading right after writing. *)
Theorem C01_write_then_read : forall w r B inp out m, typed m -> validW m inp -> mb m !! B = None ->
  validW m out -> s_len inp <= s_len out ->
  exists m', returns (let! st := write w B inp in read r (s_len inp) st out) m tt m' /\
    take (Z.to_nat (s_len inp)) (words m' out) = words m inp.
Proof.
  intros w r B inp out m Ht Hv Hf Ho Hlen. destruct (C01_round_trip w r B inp m Ht Hv Hf) as (st & m1 & [R1 R2] & Hvb & H).
  destruct (write_run w m B inp Ht Hv Hf) as [[R3 R4] _]. rewrite R1 in R3. injection R3 as ->. rewrite R2 in R4. subst m1.
  destruct (H (final (run (write w B inp) m)) out) as (m3 & [R5 R6] & E & _); try done.
  - rewrite R4. by apply wmem_typed.
  - rewrite R4. done.
  - exists m3. split; [|done]. eapply returns_bind; [split; [exact R1|reflexivity]|split; [exact R5|exact R6]].
Qed.
(** After transport: any slice holding the stream bytes (and perhaps more). *)
Theorem C01_round_trip_copied : forall w r B inp m, typed m -> validW m inp -> mb m !! B = None ->
  exists st m1, returns (write w B inp) m st m1 /\
  forall m2 st2 junk out, typed m2 -> validB m2 st2 -> bytes m2 st2 = bytes m1 st ++ junk -> validW m2 out -> s_len inp <= s_len out ->
  (is_simd r = true -> s_off st2 + Z.of_nat (length (bytes m1 st)) + overread (s_len inp) <= Z.of_nat (length (default [] (mb m2 !! s_blk st2)))) ->
  exists m3, returns (read r (s_len inp) st2 out) m2 tt m3 /\ take (Z.to_nat (s_len inp)) (words m3 out) = words m inp.
Proof.
  intros w r B inp m Ht Hv Hf. set (X := words m inp). exists (wret B X), (wmem m B X).
  assert (HX : zlen X = s_len inp) by (by apply contents_zlen, Hv).
  assert (Hl : Z.to_nat (s_len inp) = length X) by (unfold zlen in HX; lia).
  split; [by apply write_run|]. destruct Hv as [(V1 & V2 & V3) V4].
  intros m2 st2 junk out Ht2 Hs2 Eb Ho2 Hlen Hroom. rewrite wmem_bytes in *.
  assert (Hj : Forall is_byte junk) by (pose proof (typed_bytes m2 st2 Ht2) as G; rewrite Eb in G; apply Forall_app in G as [_ G]; done).
  assert (Hwf : well_formed (Z.to_nat (s_len inp)) (bytes m2 st2)) by (rewrite Eb, Hl; by apply written_well_formed).
  assert (HD : decode_stream (Z.to_nat (s_len inp)) (bytes m2 st2) = X) by (rewrite Eb, Hl; apply decode_written; by apply typed_words).
  destruct (read_run r m2 st2 out (s_len inp) Ht2 Hs2 Ho2 ltac:(lia) Hwf) as [G1 G2].
  { unfold room, reach. rewrite Eb, Hl, written_size. destruct (is_simd r); [specialize (Hroom eq_refl); lia|].
    assert (Hb := contents_zlen _ _ (proj1 Hs2)). change (contents (mb m2) st2) with (bytes m2 st2) in Hb. rewrite Eb in Hb. unfold zlen in Hb. rewrite app_length in Hb.
    destruct Hs2 as [(? & ? & ?) ?]. lia. }
  rewrite HD in G1. eexists. split; [exact G1|]. apply rmem_take; [apply Ho2|done|lia].
Qed.
Example C01_example :
  let r := run (let! st := WriteAll (AMD64 true true) 9 ex_in in ReadAll (AMD64 true false) 37 st ex_out) ex_mem in
  result r = Ok tt /\ take 37 (words (final r) ex_out) = ex_nums.
Proof. vm_compute. done. Qed.

(** ** C02 *)
Theorem C02_delta_round_trip : forall w r B inp prev m, typed m -> validW m inp -> mb m !! B = None -> is_u32 prev ->
  exists st m1, returns (write_delta w B inp prev) m st m1 /\ validB m1 st /\
  forall m2 out, typed m2 -> validB m2 st -> bytes m2 st = bytes m1 st -> validW m2 out -> s_len inp <= s_len out ->
  exists m3, returns (read_delta r (s_len inp) st out prev) m2 tt m3 /\
    take (Z.to_nat (s_len inp)) (words m3 out) = words m inp /\
    accesses (read_delta r (s_len inp) st out prev) m2 (reader_may st (s_cap st) out (s_len inp)).
Proof.
  intros w r B inp prev m Ht Hv Hf Hp. set (X := deltas prev (words m inp)). exists (wret B X), (wmem m B X).
  assert (HX : zlen X = s_len inp) by (unfold X; rewrite zlen_deltas; by apply contents_zlen, Hv).
  assert (Hl : Z.to_nat (s_len inp) = length X) by (unfold zlen in HX; lia).
  split; [by apply write_delta_run|]. destruct Hv as [(V1 & V2 & V3) V4]. split; [apply wmem_validB; lia|].
  intros m2 out Ht2 Hs2 Eb Ho2 Hlen. rewrite wmem_bytes in Eb.
  assert (Hwf : well_formed (Z.to_nat (s_len inp)) (bytes m2 (wret B X))).
  { rewrite Eb, Hl. pose proof (written_well_formed X [] ltac:(constructor)) as G. by rewrite app_nil_r in G. }
  assert (HD : decode_stream_delta (Z.to_nat (s_len inp)) (bytes m2 (wret B X)) prev = words m inp).
  { unfold decode_stream_delta. rewrite Eb, Hl. pose proof (decode_written X []) as G. rewrite app_nil_r in G. rewrite G by apply deltas_u32.
    apply running_sums_deltas. by apply typed_words. }
  destruct (read_delta_cap_run r m2 (wret B X) out (s_len inp) Ht2 Hs2 Ho2 ltac:(lia) Hwf) with (prev := prev) as [G1 G2].
  { cbn. unfold wN. rewrite wcl_eq, HX. lia. }
  { done. }
  rewrite HD in G1. eexists. split; [exact G1|]. split; [|done]. apply rmem_take; [apply Ho2|by apply contents_zlen|lia].
Qed.
Theorem C02_write_then_read : forall w r B inp out prev m, typed m -> validW m inp -> mb m !! B = None -> is_u32 prev ->
  validW m out -> s_len inp <= s_len out ->
  exists m', returns (let! st := write_delta w B inp prev in read_delta r (s_len inp) st out prev) m tt m' /\
    take (Z.to_nat (s_len inp)) (words m' out) = words m inp.
Proof.
  intros w r B inp out prev m Ht Hv Hf Hp Ho Hlen. destruct (C02_delta_round_trip w r B inp prev m Ht Hv Hf Hp) as (st & m1 & [R1 R2] & Hvb & H).
  destruct (write_delta_run w m B inp Ht Hv Hf prev Hp) as [[R3 R4] _]. rewrite R1 in R3. injection R3 as ->. rewrite R2 in R4. subst m1.
  destruct (H (final (run (write_delta w B inp prev) m)) out) as (m3 & [R5 R6] & E & _); try done.
  - rewrite R4. by apply wmem_typed.
  - rewrite R4. done.
  - exists m3. split; [|done]. eapply returns_bind; [split; [exact R1|reflexivity]|split; [exact R5|exact R6]].
Qed.
Theorem C02_delta_round_trip_copied : forall w r B inp prev m, typed m -> validW m inp -> mb m !! B = None -> is_u32 prev ->
  exists st m1, returns (write_delta w B inp prev) m st m1 /\
  forall m2 st2 junk out, typed m2 -> validB m2 st2 -> bytes m2 st2 = bytes m1 st ++ junk -> validW m2 out -> s_len inp <= s_len out ->
  (is_simd r = true -> s_off st2 + Z.of_nat (length (bytes m1 st)) + overread (s_len inp) <= Z.of_nat (length (default [] (mb m2 !! s_blk st2)))) ->
  exists m3, returns (read_delta r (s_len inp) st2 out prev) m2 tt m3 /\ take (Z.to_nat (s_len inp)) (words m3 out) = words m inp.
Proof.
  intros w r B inp prev m Ht Hv Hf Hp. set (X := deltas prev (words m inp)). exists (wret B X), (wmem m B X).
  assert (HX : zlen X = s_len inp) by (unfold X; rewrite zlen_deltas; by apply contents_zlen, Hv).
  assert (HW : zlen (words m inp) = s_len inp) by (by apply contents_zlen, Hv).
  assert (Hl : Z.to_nat (s_len inp) = length X) by (unfold zlen in HX; lia).
  split; [by apply write_delta_run|]. destruct Hv as [(V1 & V2 & V3) V4].
  intros m2 st2 junk out Ht2 Hs2 Eb Ho2 Hlen Hroom. rewrite wmem_bytes in *.
  assert (Hj : Forall is_byte junk) by (pose proof (typed_bytes m2 st2 Ht2) as G; rewrite Eb in G; apply Forall_app in G as [_ G]; done).
  assert (Hwf : well_formed (Z.to_nat (s_len inp)) (bytes m2 st2)) by (rewrite Eb, Hl; by apply written_well_formed).
  assert (HD : decode_stream_delta (Z.to_nat (s_len inp)) (bytes m2 st2) prev = words m inp).
  { unfold decode_stream_delta. rewrite Eb, Hl, decode_written by apply deltas_u32. apply running_sums_deltas. by apply typed_words. }
  destruct (read_delta_run r m2 st2 out (s_len inp) Ht2 Hs2 Ho2 ltac:(lia) Hwf) with (prev := prev) as [G1 G2].
  { unfold room, reach. rewrite Eb, Hl, written_size. destruct (is_simd r); [specialize (Hroom eq_refl); lia|].
    assert (Hb := contents_zlen _ _ (proj1 Hs2)). change (contents (mb m2) st2) with (bytes m2 st2) in Hb. rewrite Eb in Hb. unfold zlen in Hb. rewrite app_length in Hb.
    destruct Hs2 as [(? & ? & ?) ?]. lia. }
  { done. }
  rewrite HD in G1. eexists. split; [exact G1|]. apply rmem_take; [apply Ho2|done|lia].
Qed.
(** Not sorted, prev = 100. *)
Example C02_example :
  let r := run (let! st := WriteAllDelta (AMD64 true true) 9 ex_in 100 in ReadAllDelta OtherArch 37 st ex_out 100) ex_mem in
  result r = Ok tt /\ take 37 (words (final r) ex_out) = ex_nums.
Proof. vm_compute. done. Qed.
