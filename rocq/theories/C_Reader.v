(** * Properties of the stream readers: C06, C07, C10, C12, C14, C36, C37, C38 *)
From stdpp Require Import prelude gmap list.
From Coq Require Import ZArith Lia.
From Verif Require Import Spec SpecLemmas GoSem Shared Tables Asm Decode DecodeProof2 Wp Reader ReaderProof ReaderProof2 ReaderProof3 ReaderProof4 WriterProof2 Api ApiLemmas Witness.
Local Open Scope Z_scope.

(** The implementations: portable Go, SIMD (on a CPU with AVX, with or without
    AVX2), and the exported dispatcher on any machine. *)
Inductive reader := RScalar | RFast (avx2 : bool) | RDispatch (a : arch).
Definition read (r : reader) (n : Z) (st out : slice) : prog unit :=
  match r with
  | RScalar => ReadAllScalar n st out
  | RFast avx2 => ReadAllFast (AMD64 true avx2) n st out
  | RDispatch a => ReadAll a n st out
  end.
Definition read_delta (r : reader) (n : Z) (st out : slice) (prev : Z) : prog unit :=
  match r with
  | RScalar => ReadAllDeltaScalar n st out prev
  | RFast avx2 => ReadAllDeltaFast (AMD64 true avx2) n st out prev
  | RDispatch a => ReadAllDelta a n st out prev
  end.
(** Is it the SIMD code that runs? *)
Definition is_simd (r : reader) : bool :=
  match r with RScalar => false | RFast _ => true | RDispatch (AMD64 true _) => true | RDispatch _ => false end.

(** The furthest byte the reader may look at: the end of the stream, for the SIMD
    readers plus [overread n] (at most 3, and 0 if 4 divides n or n <= 16). *)
Definition reach (r : reader) (n : Z) (S : list Z) : Z :=
  Z.of_nat (stream_size (Z.to_nat n) S) + (if is_simd r then overread n else 0).
(** The allocation holding the stream extends that far. *)
Definition room (r : reader) (n : Z) (st : slice) (m : mem) : Prop :=
  s_off st + reach r n (bytes m st) <= Z.of_nat (length (default [] (mb m !! s_blk st))).

Lemma overread_slack n : 0 <= n -> rslack n = overread n.
Proof.
  intros. unfold rslack, overread. rewrite rcl_eq by done. destruct (n <=? 16); [done|]. Z.to_euclidean_division_equations; lia.
Qed.
Lemma overread_range n : 0 <= overread n <= 3.
Proof. unfold overread. destruct (n <=? 16); [lia|]. pose proof (Z.mod_pos_bound (- n) 4). lia. Qed.

Section all.
Context (r : reader) (m : mem) (st out : slice) (n : Z).
Context (Ht : typed m) (Hs : validB m st) (Ho : validW m out) (Hn : 0 <= n <= s_len out).
Context (Hwf : well_formed (Z.to_nat n) (bytes m st)) (Hroom : room r n st m).

Lemma fast_room : is_simd r = true -> s_off st + rover (bytes m st) n <= zlen (blk (mb m) (s_blk st)) /\ rover (bytes m st) n <= reach r n (bytes m st).
Proof.
  intros E. unfold room, reach in *. rewrite E in *. rewrite <- overread_slack in * by lia. rewrite <- rdp_end in * by lia.
  destruct Hwf as (_ & Hc & _).
  pose proof (rover_slack (bytes m st) n ltac:(lia) ltac:(unfold rcl, zlen; lia)). unfold zlen, blk. lia.
Qed.
Lemma reader_may_mono a b c d e : a <= b -> c <= d -> reader_may st a out c e -> reader_may st b out d e.
Proof. destruct e; cbn; unfold within; lia. Qed.
Lemma scalar_min : reader_may st (Z.min (s_len st) (Z.of_nat (stream_size (Z.to_nat n) (bytes m st)))) out (Z.min n (s_cap out)) = 
  reader_may st (Z.of_nat (stream_size (Z.to_nat n) (bytes m st))) out n.
Proof.
  assert (HSl : zlen (bytes m st) = s_len st) by (by apply contents_zlen, Hs). destruct Hwf as (_ & _ & H1). unfold zlen in HSl.
  rewrite Z.min_r by lia. rewrite Z.min_l by (destruct Ho as [(? & ? & ?) ?]; lia). done.
Qed.
Lemma scalar_ok_ok : scalar_ok m st out n.
Proof. split; [done|]. left. lia. Qed.
Lemma scalar_bound : n < 2 ^ 63.
Proof. destruct Ho as [(? & ? & ?) ?]. lia. Qed.
Lemma read_run : 
  returns (read r n st out) m tt (rmem m out (decode_stream (Z.to_nat n) (bytes m st))) /\
  accesses (read r n st out) m (reader_may st (reach r n (bytes m st)) out n).
Proof.
  pose proof scalar_bound. assert (Hsc : is_simd r = false -> read r n st out = ReadAllScalar n st out) by (destruct r as [|b|[[] b|]]; intros E0; (discriminate || reflexivity)).
  assert (Hfa : is_simd r = true -> exists avx2, read r n st out = ReadAllFast (AMD64 true avx2) n st out) by (destruct r as [|b|[[] b|]]; intros E0; [discriminate|exists b; reflexivity|exists b; reflexivity|discriminate|discriminate]).
  pose proof fast_room as Hfr. destruct (is_simd r) eqn:E.
  - destruct (Hfa eq_refl) as [avx2 ->]. destruct (Hfr eq_refl) as [Hr1 Hr2].
    destruct (ReadAllFast_run m st out n Ht Hs Ho avx2 ltac:(lia) Hwf Hr1) as [G1 G2]. split; [done|].
    eapply Forall_impl; [exact G2|]. intros e. by apply reader_may_mono.
  - rewrite Hsc by done. destruct (ReadAllScalar_run m st out n Ht Hs Ho ltac:(lia)) as (G1 & _ & G2). split; [apply G1, scalar_ok_ok|].
    unfold reach. rewrite E, Z.add_0_r. by rewrite scalar_min in G2.
Qed.
Lemma read_delta_run prev : is_u32 prev ->
  returns (read_delta r n st out prev) m tt (rmem m out (decode_stream_delta (Z.to_nat n) (bytes m st) prev)) /\
  accesses (read_delta r n st out prev) m (reader_may st (reach r n (bytes m st)) out n).
Proof.
  intros Hp. pose proof scalar_bound. assert (Hsc : is_simd r = false -> read_delta r n st out prev = ReadAllDeltaScalar n st out prev) by (destruct r as [|b|[[] b|]]; intros E0; (discriminate || reflexivity)).
  assert (Hfa : is_simd r = true -> exists avx2, read_delta r n st out prev = ReadAllDeltaFast (AMD64 true avx2) n st out prev) by (destruct r as [|b|[[] b|]]; intros E0; [discriminate|exists b; reflexivity|exists b; reflexivity|discriminate|discriminate]).
  pose proof fast_room as Hfr. destruct (is_simd r) eqn:E.
  - destruct (Hfa eq_refl) as [avx2 ->]. destruct (Hfr eq_refl) as [Hr1 Hr2].
    destruct (ReadAllDeltaFast_run m st out n Ht Hs Ho avx2 prev Hp ltac:(lia) Hwf Hr1) as [G1 G2]. split; [done|].
    eapply Forall_impl; [exact G2|]. intros e. by apply reader_may_mono.
  - rewrite Hsc by done. destruct (ReadAllDeltaScalar_run m st out n Ht Hs Ho prev ltac:(lia)) as (G1 & _ & G2). split; [apply G1, scalar_ok_ok|].
    unfold reach. rewrite E, Z.add_0_r. by rewrite scalar_min in G2.
Qed.
Lemma dec_zlen : zlen (decode_stream (Z.to_nat n) (bytes m st)) = n.
Proof. apply rD_zlen; [lia|]. destruct Hwf as (_ & H & _). unfold rcl, zlen. lia. Qed.
Lemma dec_delta_zlen prev : zlen (decode_stream_delta (Z.to_nat n) (bytes m st) prev) = n.
Proof. unfold decode_stream_delta. unfold zlen. rewrite running_sums_length. apply dec_zlen. Qed.
End all.

Lemma rmem_take m out R n : fits (mw m) out -> zlen R = n -> n <= s_len out -> take (Z.to_nat n) (words (rmem m out R) out) = R.
Proof. intros Hf <- Hn. unfold zlen. rewrite Nat2Z.id. apply rmem_words; [done|]. done. Qed.
Lemma fits_room m st n S : fits (mb m) st -> well_formed (Z.to_nat n) (bytes m st) -> bytes m st = S ->
  s_off st + Z.of_nat (stream_size (Z.to_nat n) S) <= Z.of_nat (length (default [] (mb m !! s_blk st))).
Proof.
  intros Hf (_ & _ & H) <-. pose proof (contents_length _ _ Hf) as Hl. unfold bytes in *. rewrite Hl in H. destruct Hf as (? & ? & ?). lia.
Qed.

(** ** C06: the scalar readers decode every well-formed stream *)
Theorem C06_scalar_reader : forall n st out m, typed m -> validB m st -> validW m out -> 0 <= n <= s_len out ->
  well_formed (Z.to_nat n) (bytes m st) ->
  exists m', returns (ReadAllScalar n st out) m tt m' /\
    take (Z.to_nat n) (words m' out) = decode_stream (Z.to_nat n) (bytes m st).
Proof.
  intros n st out m Ht Hs Ho Hn Hwf. eexists. split.
  - apply (read_run RScalar m st out n); try done. unfold room, reach. cbn [is_simd]. rewrite Z.add_0_r. eapply fits_room; [apply Hs|done..].
  - apply rmem_take; [apply Ho|by apply dec_zlen with (out := out)|lia].
Qed.
Theorem C06_scalar_delta_reader : forall n st out prev m, typed m -> validB m st -> validW m out -> 0 <= n <= s_len out ->
  is_u32 prev -> well_formed (Z.to_nat n) (bytes m st) ->
  exists m', returns (ReadAllDeltaScalar n st out prev) m tt m' /\
    take (Z.to_nat n) (words m' out) = decode_stream_delta (Z.to_nat n) (bytes m st) prev.
Proof.
  intros n st out prev m Ht Hs Ho Hn Hp Hwf. eexists. split.
  - apply (read_delta_run RScalar m st out n); try done. unfold room, reach. cbn [is_simd]. rewrite Z.add_0_r. eapply fits_room; [apply Hs|done..].
  - apply rmem_take; [apply Ho|by apply dec_delta_zlen with (out := out)|lia].
Qed.
(** A stream with redundant zero bytes, non-zero unused slots and trailing bytes. *)
Example C06_example :
  well_formed 7 (bytes ex_mem ex_st) /\ decode_stream 7 (bytes ex_mem ex_st) = [1; 2; 3; 4; 101124105; 197637; 258] /\
  stream_size 7 (bytes ex_mem ex_st) = 21%nat /\
  take 7 (words (final (run (ReadAllScalar 7 ex_st ex_out) ex_mem)) ex_out) = [1; 2; 3; 4; 101124105; 197637; 258].
Proof.
  split; [|vm_compute; done]. split; [apply (typed_bytes _ _ ex_typed)|]. vm_compute. lia.
Qed.

(** ** C07: the SIMD readers decode every well-formed stream, given room *)
Theorem C07_fast_reader : forall avx2 n st out m, typed m -> validB m st -> validW m out -> 0 <= n <= s_len out ->
  well_formed (Z.to_nat n) (bytes m st) ->
  s_off st + Z.of_nat (stream_size (Z.to_nat n) (bytes m st)) + overread n <= Z.of_nat (length (default [] (mb m !! s_blk st))) ->
  exists m', returns (ReadAllFast (AMD64 true avx2) n st out) m tt m' /\
    take (Z.to_nat n) (words m' out) = decode_stream (Z.to_nat n) (bytes m st).
Proof.
  intros avx2 n st out m Ht Hs Ho Hn Hwf Hroom. eexists. split.
  - apply (read_run (RFast avx2) m st out n); try done. unfold room, reach. cbn [is_simd]. lia.
  - apply rmem_take; [apply Ho|by apply dec_zlen with (out := out)|lia].
Qed.
Theorem C07_fast_delta_reader : forall avx2 n st out prev m, typed m -> validB m st -> validW m out -> 0 <= n <= s_len out ->
  is_u32 prev -> well_formed (Z.to_nat n) (bytes m st) ->
  s_off st + Z.of_nat (stream_size (Z.to_nat n) (bytes m st)) + overread n <= Z.of_nat (length (default [] (mb m !! s_blk st))) ->
  exists m', returns (ReadAllDeltaFast (AMD64 true avx2) n st out prev) m tt m' /\
    take (Z.to_nat n) (words m' out) = decode_stream_delta (Z.to_nat n) (bytes m st) prev.
Proof.
  intros avx2 n st out prev m Ht Hs Ho Hn Hp Hwf Hroom. eexists. split.
  - apply (read_delta_run (RFast avx2) m st out n); try done. unfold room, reach. cbn [is_simd]. lia.
  - apply rmem_take; [apply Ho|by apply dec_delta_zlen with (out := out)|lia].
Qed.
(** The result depends only on the first [stream_size] bytes. *)
Lemma take_stream_lens n S k : (nctrl n <= k)%nat -> stream_lens n (take k S) = stream_lens n S.
Proof. intros. unfold stream_lens. rewrite take_take, Nat.min_l by done. done. Qed.
Lemma cut_take_le ls d k : (sum_nat ls <= k)%nat -> cut ls (take k d) = cut ls d.
Proof.
  revert d k. induction ls as [|l ls IH]; intros d k H; [done|]. cbn [cut]. cbn [sum_nat fold_right] in H.
  rewrite take_take, Nat.min_l by lia. rewrite skipn_firstn_comm, IH by (unfold sum_nat; lia). done.
Qed.
Theorem C07_only_the_stream_matters : forall n S, decode_stream n (take (stream_size n S) S) = decode_stream n S.
Proof.
  intros. unfold decode_stream. rewrite take_stream_lens by (unfold stream_size; lia).
  rewrite skipn_firstn_comm, cut_take_le; [done|]. unfold stream_size. lia.
Qed.
(** 18 numbers in 44 bytes; the allocation has 3 more, of which 2 may be read. *)
Definition ex7_block : list Z := [228; 0; 17; 255; 1] ++ map (fun i => Z.of_nat i) (seq 1 42).
Definition ex7_mem : mem := Mem {[ 3%nat := ex7_block ]} (mw ex_mem).
Definition ex7_st : slice := Slice 3 0 44 44.
Example C07_example :
  stream_size 18 (bytes ex7_mem ex7_st) = 44%nat /\ overread 18 = 2 /\ length ex7_block = 47%nat /\
  take 18 (words (final (run (ReadAllFast (AMD64 true true) 18 ex7_st ex_out) ex7_mem)) ex_out) = decode_stream 18 (bytes ex7_mem ex7_st).
Proof. vm_compute. done. Qed.

(** ** C10: only out[0:count] changes *)
Theorem C10_frame : forall r n st out m, typed m -> validB m st -> validW m out -> 0 <= n <= s_len out ->
  well_formed (Z.to_nat n) (bytes m st) -> room r n st m ->
  exists m', returns (read r n st out) m tt m' /\
    mb m' = mb m /\ same_except (mw m) (mw m') (s_blk out) (s_off out) n.
Proof.
  intros r n st out m Ht Hs Ho Hn Hwf Hr. eexists. split; [by apply read_run|].
  pose proof (dec_zlen m st out n Hn Hwf) as Hl. destruct (rmem_spec m out _ (proj1 Ho) ltac:(rewrite Hl; destruct Ho as [(? & ? & ?) ?]; lia)) as (G1 & G2 & _).
  rewrite Hl in G2. done.
Qed.
Theorem C10_frame_delta : forall r n st out prev m, typed m -> validB m st -> validW m out -> 0 <= n <= s_len out ->
  is_u32 prev -> well_formed (Z.to_nat n) (bytes m st) -> room r n st m ->
  exists m', returns (read_delta r n st out prev) m tt m' /\
    mb m' = mb m /\ same_except (mw m) (mw m') (s_blk out) (s_off out) n.
Proof.
  intros r n st out prev m Ht Hs Ho Hn Hp Hwf Hr. eexists. split; [by apply read_delta_run|].
  pose proof (dec_delta_zlen m st out n Hn Hwf prev) as Hl. destruct (rmem_spec m out _ (proj1 Ho) ltac:(rewrite Hl; destruct Ho as [(? & ? & ?) ?]; lia)) as (G1 & G2 & _).
  rewrite Hl in G2. done.
Qed.
(** The whole effect in one statement. *)
Theorem C10_read : forall r n st out m, typed m -> validB m st -> validW m out -> 0 <= n <= s_len out ->
  well_formed (Z.to_nat n) (bytes m st) -> room r n st m ->
  exists m', returns (read r n st out) m tt m' /\
    words m' out = decode_stream (Z.to_nat n) (bytes m st) ++ drop (Z.to_nat n) (words m out).
Proof.
  intros r n st out m Ht Hs Ho Hn Hwf Hr. eexists. split; [by apply read_run|].
  pose proof (dec_zlen m st out n Hn Hwf) as Hl. set (D := decode_stream (Z.to_nat n) (bytes m st)) in *.
  rewrite <- (take_drop (Z.to_nat n) (words (rmem m out D) out)). f_equal; [apply rmem_take; [apply Ho|done|lia]|].
  destruct (rmem_blk m out D (proj1 Ho) ltac:(rewrite Hl; destruct Ho as [(? & ? & ?) ?]; lia)) as [E _].
  rewrite !words_sub, E. destruct Ho as [(H1 & H2 & H3) H4]. apply list_eq. intros i. rewrite !lookup_drop. unfold sub.
  destruct (decide (Z.to_nat n + i < Z.to_nat (s_len out)))%nat.
  - rewrite !lookup_take, !lookup_drop by done. rewrite splice_lookup by (unfold zlen, blk in *; lia). case_decide; [done|]. case_decide; [|done]. lia.
  - rewrite !lookup_take_ge by lia. done.
Qed.
Example C10_example :
  let m' := final (run (ReadAllFast (AMD64 true true) 18 ex7_st ex_out) ex7_mem) in
  drop 21 (default [] (mw m' !! 1%nat)) = replicate 39 7 /\ take 3 (default [] (mw m' !! 1%nat)) = [7; 7; 7] /\
  mw m' !! 0%nat = mw ex_mem !! 0%nat /\ mb m' = mb ex7_mem.
Proof. vm_compute. done. Qed.

(** ** C12: the SIMD readers do read outside the stream *)
Definition c12_mem (k : nat) : mem := Mem {[ 3%nat := replicate 5 0 ++ replicate 17 1 ++ replicate k 9 ]} (mw ex_mem).
Definition c12_st : slice := Slice 3 0 22 22.
Lemma c12_typed k : typed (c12_mem k).
Proof.
  split; [|apply ex_typed]. intros b l. unfold c12_mem. cbn [mb]. rewrite lookup_singleton_Some. intros [_ <-].
  rewrite !Forall_app. split; [repeat constructor; lia|]. split; [repeat constructor; lia|]. apply Forall_replicate. unfold is_byte. lia.
Qed.
(** 17 one-byte numbers: the stream has 22 bytes, bytes 22, 23 and 24 are read;
    the access faults if the allocation ends with the stream. *)
Theorem C12_refuted : exists n st out m, typed m /\ validB m st /\ validW m out /\ 0 <= n <= s_len out /\
  well_formed (Z.to_nat n) (bytes m st) /\ s_len st = Z.of_nat (stream_size (Z.to_nat n) (bytes m st)) /\
  ~ accesses (ReadAllFast (AMD64 true true) n st out) m (reader_may st (s_len st) out n) /\
  ~ accesses (ReadAllDeltaFast (AMD64 true true) n st out 0) m (reader_may st (s_len st) out n).
Proof.
  assert (Hin : forall p : prog unit, In (ERdB 3 24) (trace (run p (c12_mem 3))) -> ~ accesses p (c12_mem 3) (reader_may c12_st 22 ex_out 17)).
  { intros p Hi Ha. eapply List.Forall_forall in Ha; [|exact Hi]. cbn in Ha. unfold within in Ha. cbn in Ha. lia. }
  exists 17, c12_st, ex_out, (c12_mem 3). split; [apply c12_typed|]. split; [fits|]. split; [fits|].
  split; [vm_compute; intuition discriminate|].
  split; [split; [apply (typed_bytes _ _ (c12_typed 3))|vm_compute; lia]|]. split; [vm_compute; done|].
  split; apply Hin; vm_compute; repeat (first [left; reflexivity|right]).
Qed.
Theorem C12_refuted_fault : exists n st out m, typed m /\ validB m st /\ validW m out /\ 0 <= n <= s_len out /\
  well_formed (Z.to_nat n) (bytes m st) /\
  result (run (ReadAllFast (AMD64 true true) n st out) m) = Faulted /\
  result (run (ReadAllDeltaFast (AMD64 true true) n st out 0) m) = Faulted.
Proof.
  exists 17, c12_st, ex_out, (c12_mem 0). split; [apply c12_typed|]. split; [fits|]. split; [fits|].
  split; [vm_compute; intuition discriminate|].
  split; [split; [apply (typed_bytes _ _ (c12_typed 0))|vm_compute; lia]|]. split; vm_compute; done.
Qed.
(** What does hold: at most 3 bytes past the end are read, none if 4 divides the
    count or the count is at most 16. *)
Theorem C12_at_most_three_bytes_partial : forall r n st out m, typed m -> validB m st -> validW m out -> 0 <= n <= s_len out ->
  well_formed (Z.to_nat n) (bytes m st) -> room r n st m ->
  accesses (read r n st out) m (reader_may st (Z.of_nat (stream_size (Z.to_nat n) (bytes m st)) + 3) out n).
Proof.
  intros r n st out m Ht Hs Ho Hn Hwf Hr. destruct (read_run r m st out n Ht Hs Ho Hn Hwf Hr) as [_ H].
  eapply Forall_impl; [exact H|]. intros e. apply reader_may_mono; [|lia]. unfold reach. pose proof (overread_range n). destruct (is_simd r); lia.
Qed.
Theorem C12_at_most_three_bytes_delta_partial : forall r n st out prev m, typed m -> validB m st -> validW m out -> 0 <= n <= s_len out ->
  is_u32 prev -> well_formed (Z.to_nat n) (bytes m st) -> room r n st m ->
  accesses (read_delta r n st out prev) m (reader_may st (Z.of_nat (stream_size (Z.to_nat n) (bytes m st)) + 3) out n).
Proof.
  intros r n st out prev m Ht Hs Ho Hn Hp Hwf Hr. destruct (read_delta_run r m st out n Ht Hs Ho Hn Hwf Hr prev Hp) as [_ H].
  eapply Forall_impl; [exact H|]. intros e. apply reader_may_mono; [|lia]. unfold reach. pose proof (overread_range n). destruct (is_simd r); lia.
Qed.
Lemma overread_0 n : n mod 4 = 0 \/ n <= 16 -> overread n = 0.
Proof.
  unfold overread. intros [H|H]; [|by rewrite (proj2 (Z.leb_le _ _))]. destruct (n <=? 16); [done|].
  rewrite Z.mod_opp_l_z; done.
Qed.
Theorem C12_inside_partial : forall r n st out m, typed m -> validB m st -> validW m out -> 0 <= n <= s_len out ->
  well_formed (Z.to_nat n) (bytes m st) -> n mod 4 = 0 \/ n <= 16 ->
  accesses (read r n st out) m (reader_may st (Z.of_nat (stream_size (Z.to_nat n) (bytes m st))) out n).
Proof.
  intros r n st out m Ht Hs Ho Hn Hwf H4. assert (E : reach r n (bytes m st) = Z.of_nat (stream_size (Z.to_nat n) (bytes m st))).
  { unfold reach. rewrite overread_0 by done. destruct (is_simd r); lia. }
  rewrite <- E. apply read_run; try done. unfold room. rewrite E. eapply fits_room; [apply Hs|done..].
Qed.
Theorem C12_inside_delta_partial : forall r n st out prev m, typed m -> validB m st -> validW m out -> 0 <= n <= s_len out ->
  is_u32 prev -> well_formed (Z.to_nat n) (bytes m st) -> n mod 4 = 0 \/ n <= 16 ->
  accesses (read_delta r n st out prev) m (reader_may st (Z.of_nat (stream_size (Z.to_nat n) (bytes m st))) out n).
Proof.
  intros r n st out prev m Ht Hs Ho Hn Hp Hwf H4. assert (E : reach r n (bytes m st) = Z.of_nat (stream_size (Z.to_nat n) (bytes m st))).
  { unfold reach. rewrite overread_0 by done. destruct (is_simd r); lia. }
  rewrite <- E. apply read_delta_run; try done. unfold room. rewrite E. eapply fits_room; [apply Hs|done..].
Qed.
(** On the stream of [C12_refuted]: with three more bytes in the allocation there is room, the
    17 numbers are read, and three bytes past the stream are loaded. *)
Example C12_example : room (RFast true) 17 c12_st (c12_mem 3) /\
  take 17 (drop 3 (default [] (mw (final (run (ReadAllFast (AMD64 true true) 17 c12_st ex_out) (c12_mem 3))) !! 1%nat))) = replicate 17 1 /\
  reach (RFast true) 17 (bytes (c12_mem 3) c12_st) = 25 /\ s_len c12_st = 22.
Proof. vm_compute. intuition (try discriminate; try reflexivity). Qed.

(** ** C14: truncated streams *)
Theorem C14_scalar : forall n st out m, typed m -> validB m st -> validW m out -> 0 <= n < 2 ^ 63 ->
  ~ well_formed (Z.to_nat n) (bytes m st) -> panics (ReadAllScalar n st out) m.
Proof.
  intros n st out m Ht Hs Ho Hn Hwf. destruct (ReadAllScalar_run m st out n Ht Hs Ho Hn) as (_ & H & _). apply H. by intros [? _].
Qed.
Theorem C14_scalar_delta : forall n st out prev m, typed m -> validB m st -> validW m out -> 0 <= n < 2 ^ 63 ->
  ~ well_formed (Z.to_nat n) (bytes m st) -> panics (ReadAllDeltaScalar n st out prev) m.
Proof.
  intros n st out prev m Ht Hs Ho Hn Hwf. destruct (ReadAllDeltaScalar_run m st out n Ht Hs Ho prev Hn) as (_ & H & _). apply H. by intros [? _].
Qed.
Example C14_example :
  ~ well_formed 37 (take 82 (stream_of ex_nums)) /\ length (stream_of ex_nums) = 83%nat.
Proof. split; [|done]. intros (_ & _ & H). vm_compute in H. lia. Qed.
(** The SIMD readers do not panic on every truncated stream: they can access
    memory outside the allocation first. *)
Theorem C14_fast_refuted : exists n st out m, typed m /\ validB m st /\ validW m out /\ 0 <= n <= s_len out /\
  ~ well_formed (Z.to_nat n) (bytes m st) /\
  result (run (ReadAllFast (AMD64 true true) n st out) m) = Faulted /\
  result (run (ReadAllDeltaFast (AMD64 true true) n st out 0) m) = Faulted.
Proof.
  exists 17, (Slice 3 0 20 20), ex_out, (c12_mem 0). split; [apply c12_typed|]. split; [fits|]. split; [fits|].
  split; [vm_compute; intuition discriminate|].
  split; [intros (_ & _ & H); vm_compute in H; lia|]. split; vm_compute; done.
Qed.

(** ** C36: out shorter than count *)
(** The scalar readers slice [out] up to its capacity, so with room there they
    return normally and write past len(out). *)
Theorem C36_scalar_refuted : exists n st out m m', typed m /\ validB m st /\ validW m out /\ 0 <= n /\ s_len out < n /\
  returns (ReadAllScalar n st out) m tt m' /\ hget (mw m) (s_blk out) (s_off out + s_len out) <> hget (mw m') (s_blk out) (s_off out + s_len out).
Proof.
  exists 16, c12_st, (Slice 1 3 10 50), (c12_mem 0). eexists. split; [apply c12_typed|]. split; [fits|]. split; [fits|].
  split; [lia|]. split; [reflexivity|]. split; [split; [vm_compute; reflexivity|reflexivity]|]. vm_compute. congruence.
Qed.
(** The SIMD readers write past the capacity, into memory the slice does not own. *)
Theorem C36_fast_refuted : exists n st out m, typed m /\ validB m st /\ validW m out /\ 0 <= n /\ s_len out < n /\ s_cap out = s_len out /\
  let m' := final (run (ReadAllFast (AMD64 true true) n st out) m) in
  hget (mw m) (s_blk out) (s_off out + s_cap out) <> hget (mw m') (s_blk out) (s_off out + s_cap out).
Proof.
  exists 17, c12_st, (Slice 1 3 3 3), (c12_mem 3). split; [apply c12_typed|]. split; [fits|]. split; [fits|].
  split; [lia|]. split; [reflexivity|]. split; [reflexivity|]. vm_compute. congruence.
Qed.
(** What does hold for the scalar readers: a panic unless 16 divides the count and
    the capacity suffices, and never an access past the capacity. *)
Theorem C36_scalar_partial : forall n st out m, typed m -> validB m st -> validW m out -> 0 <= n < 2 ^ 63 -> s_len out < n ->
  (n mod 16 <> 0 \/ s_cap out < n -> panics (ReadAllScalar n st out) m) /\
  accesses (ReadAllScalar n st out) m (reader_may st (s_len st) out (s_cap out)).
Proof.
  intros n st out m Ht Hs Ho Hn Hl. destruct (ReadAllScalar_run m st out n Ht Hs Ho Hn) as (_ & H & G). split.
  - intros Hx. apply H. intros [_ [?|[? ?]]]; lia.
  - eapply Forall_impl; [exact G|]. intros e. apply reader_may_mono; lia.
Qed.
Theorem C36_scalar_delta_partial : forall n st out prev m, typed m -> validB m st -> validW m out -> 0 <= n < 2 ^ 63 -> s_len out < n ->
  (n mod 16 <> 0 \/ s_cap out < n -> panics (ReadAllDeltaScalar n st out prev) m) /\
  accesses (ReadAllDeltaScalar n st out prev) m (reader_may st (s_len st) out (s_cap out)).
Proof.
  intros n st out prev m Ht Hs Ho Hn Hl. destruct (ReadAllDeltaScalar_run m st out n Ht Hs Ho prev Hn) as (_ & H & G). split.
  - intros Hx. apply H. intros [_ [?|[? ?]]]; lia.
  - eapply Forall_impl; [exact G|]. intros e. apply reader_may_mono; lia.
Qed.
Example C36_example : panics (ReadAllScalar 17 c12_st (Slice 1 3 16 50)) (c12_mem 0) /\ panics (ReadAllScalar 16 c12_st (Slice 1 3 15 15)) (c12_mem 0).
Proof. vm_compute. done. Qed.

(** ** C37: the count argument *)
(** Counts for which the stream and [out] suffice are interpreted alike. *)
Theorem C37_same_partial : forall r r' n st out m, typed m -> validB m st -> validW m out -> 0 <= n <= s_len out ->
  well_formed (Z.to_nat n) (bytes m st) -> room r n st m -> room r' n st m ->
  result (run (read r n st out) m) = result (run (read r' n st out) m) /\
  final (run (read r n st out) m) = final (run (read r' n st out) m).
Proof.
  intros r r' n st out m Ht Hs Ho Hn Hwf Hr Hr'. destruct (read_run r m st out n Ht Hs Ho Hn Hwf Hr) as [[-> ->] _].
  destruct (read_run r' m st out n Ht Hs Ho Hn Hwf Hr') as [[-> ->] _]. done.
Qed.
Theorem C37_same_delta_partial : forall r r' n st out prev m, typed m -> validB m st -> validW m out -> 0 <= n <= s_len out ->
  is_u32 prev -> well_formed (Z.to_nat n) (bytes m st) -> room r n st m -> room r' n st m ->
  result (run (read_delta r n st out prev) m) = result (run (read_delta r' n st out prev) m) /\
  final (run (read_delta r n st out prev) m) = final (run (read_delta r' n st out prev) m).
Proof.
  intros r r' n st out prev m Ht Hs Ho Hn Hp Hwf Hr Hr'. destruct (read_delta_run r m st out n Ht Hs Ho Hn Hwf Hr prev Hp) as [[-> ->] _].
  destruct (read_delta_run r' m st out n Ht Hs Ho Hn Hwf Hr' prev Hp) as [[-> ->] _]. done.
Qed.
(** count = -1: the scalar reader decodes three numbers, the SIMD reader none. *)
Theorem C37_refuted : exists n st out m, typed m /\ validB m st /\ validW m out /\ - 2 ^ 63 <= n < 0 /\
  result (run (ReadAllScalar n st out) m) = Ok tt /\ result (run (ReadAllFast (AMD64 true true) n st out) m) = Ok tt /\
  final (run (ReadAllFast (AMD64 true true) n st out) m) = m /\
  take 4 (words m out) = [7; 7; 7; 7] /\
  take 4 (words (final (run (ReadAllScalar n st out) m)) out) = [228; 283; 196610; 7].
Proof.
  exists (-1), ex_st, ex_out, ex_mem. split; [apply ex_typed|]. split; [fits|]. split; [fits|]. split; [lia|]. vm_compute. done.
Qed.
(** Exactly what the scalar readers do with a negative count. *)
Definition first_byte (S : list Z) : Z := nth 0 S 0.
Definition neg_ok (n : Z) (S : list Z) (out : slice) : Prop :=
  let r := n mod 4 in
  r = 0 \/ (-7 < n /\ (1 <= length S)%nat /\ (sum_nat (take (Z.to_nat r) (ctrl_lens (first_byte S))) <= length S)%nat /\ r <= s_len out).
(** The numbers decoded: [n mod 4] of them, the first byte being both control byte and data. *)
Definition neg_nums (n : Z) (S : list Z) : list Z :=
  map le_val (cut (take (Z.to_nat (n mod 4)) (ctrl_lens (first_byte S))) S).
Lemma neg_nums_length n S : zlen (neg_nums n S) = n mod 4.
Proof.
  unfold neg_nums, zlen. rewrite map_length, cut_length, take_length, ctrl_lens_length. pose proof (Z.mod_pos_bound n 4). lia.
Qed.
Lemma neg_nums_0 n S : n mod 4 = 0 -> neg_nums n S = [].
Proof. unfold neg_nums. by intros ->. Qed.
Theorem C37_negative_scalar : forall n st out m, typed m -> validB m st -> validW m out -> - 2 ^ 63 <= n < 0 ->
  let S := bytes m st in
  (~ neg_ok n S out -> panics (ReadAllScalar n st out) m) /\
  (neg_ok n S out -> exists m', returns (ReadAllScalar n st out) m tt m' /\ mb m' = mb m /\
     (n mod 4 <= s_len out -> same_except (mw m) (mw m') (s_blk out) (s_off out) (n mod 4) /\
     take (Z.to_nat (n mod 4)) (words m' out) = neg_nums n S)) /\
  accesses (ReadAllScalar n st out) m (reader_may st (s_len st) out (Z.min 3 (s_len out))).
Proof.
  intros n st out m Ht Hs Ho Hn S.
  assert (HSl : zlen S = s_len st) by (apply contents_zlen, Hs).
  destruct (wp_decides (reader_may st (s_len st) out (Z.min 3 (s_len out))) (neg_ok n S out) (ReadAllScalar n st out) m tt (rmem m out (neg_nums n S))) as (G1 & G2 & G3).
  - apply wp_ReadAllScalar_neg; try done.
    + apply Hs.
    + apply Ho.
    + by apply typed_blk_b.
    + cbn. unfold within. lia.
    + intros Hr. split; [by left|]. rewrite neg_nums_0, rmem_nil by done. done.
    + intros Hr H7 [?|[? _]]; [done|lia].
    + intros Hr Hx [?|(H1 & H2 & H3 & H4)]; [done|].
      assert (Ec : at_ S 0 = first_byte S) by (unfold first_byte; destruct S; done). fold (bytes m st) in Hx. change (sub _ _ _) with S in Hx. rewrite Ec in Hx. unfold sizek, zlen in *. lia.
    + intros Hr H7 H1 H2. change (sub _ _ _) with S in H1 |- *.
      assert (Ec : at_ S 0 = first_byte S) by (unfold first_byte; destruct S; done). rewrite Ec in *. split; [|done].
      right. unfold sizek, zlen in *. split; [lia|]. split; [|lia].
      pose proof (ctrl_lens_range (first_byte S)) as Hcl. pose proof (Z.mod_pos_bound n 4 ltac:(lia)).
      destruct (ctrl_lens (first_byte S)) as [|l0 ls] eqn:El; [done|]. inversion_clear Hcl.
      destruct (Z.to_nat (n mod 4)) eqn:En; [lia|]. cbn [take sum_nat fold_right] in H1. lia.
  - split; [done|]. split; [|done]. intros Hok. eexists. split; [by apply G1|]. split; [done|]. intros Hr.
    pose proof (neg_nums_length n S) as Hl. destruct (rmem_spec m out (neg_nums n S) (proj1 Ho)) as (_ & E & _); [destruct Ho as [(? & ? & ?) ?]; lia|].
    rewrite Hl in E. split; [done|]. apply rmem_take; [apply Ho|done|done].
Qed.
Theorem C37_negative_scalar_delta : forall n st out prev m, typed m -> validB m st -> validW m out -> - 2 ^ 63 <= n < 0 ->
  let S := bytes m st in
  (~ neg_ok n S out -> panics (ReadAllDeltaScalar n st out prev) m) /\
  (neg_ok n S out -> exists m', returns (ReadAllDeltaScalar n st out prev) m tt m' /\ mb m' = mb m /\
     (n mod 4 <= s_len out -> same_except (mw m) (mw m') (s_blk out) (s_off out) (n mod 4) /\
     take (Z.to_nat (n mod 4)) (words m' out) = running_sums prev (neg_nums n S))) /\
  accesses (ReadAllDeltaScalar n st out prev) m (reader_may st (s_len st) out (Z.min 3 (s_len out))).
Proof.
  intros n st out prev m Ht Hs Ho Hn S.
  assert (HSl : zlen S = s_len st) by (apply contents_zlen, Hs).
  destruct (wp_decides (reader_may st (s_len st) out (Z.min 3 (s_len out))) (neg_ok n S out) (ReadAllDeltaScalar n st out prev) m tt (rmem m out (running_sums prev (neg_nums n S)))) as (G1 & G2 & G3).
  - apply wp_ReadAllDeltaScalar_neg; try done.
    + apply Hs.
    + apply Ho.
    + by apply typed_blk_b.
    + cbn. unfold within. lia.
    + intros Hr. split; [by left|]. rewrite neg_nums_0 by done. cbn [running_sums]. rewrite rmem_nil by done. done.
    + intros Hr H7 [?|[? _]]; [done|lia].
    + intros Hr Hx [?|(H1 & H2 & H3 & H4)]; [done|].
      assert (Ec : at_ S 0 = first_byte S) by (unfold first_byte; destruct S; done). fold (bytes m st) in Hx. change (sub _ _ _) with S in Hx. rewrite Ec in Hx. unfold sizek, zlen in *. lia.
    + intros Hr H7 H1 H2. change (sub _ _ _) with S in H1 |- *.
      assert (Ec : at_ S 0 = first_byte S) by (unfold first_byte; destruct S; done). rewrite Ec in *. split; [|done].
      right. unfold sizek, zlen in *. split; [lia|]. split; [|lia].
      pose proof (ctrl_lens_range (first_byte S)) as Hcl. pose proof (Z.mod_pos_bound n 4 ltac:(lia)).
      destruct (ctrl_lens (first_byte S)) as [|l0 ls] eqn:El; [done|]. inversion_clear Hcl.
      destruct (Z.to_nat (n mod 4)) eqn:En; [lia|]. cbn [take sum_nat fold_right] in H1. lia.
  - split; [done|]. split; [|done]. intros Hok. eexists. split; [by apply G1|]. split; [done|]. intros Hr.
    assert (Hl : zlen (running_sums prev (neg_nums n S)) = n mod 4) by (unfold zlen; rewrite running_sums_length; apply neg_nums_length).
    destruct (rmem_spec m out (running_sums prev (neg_nums n S)) (proj1 Ho)) as (_ & E & _); [destruct Ho as [(? & ? & ?) ?]; lia|].
    rewrite Hl in E. split; [done|]. apply rmem_take; [apply Ho|done|done].
Qed.
Theorem C37_negative_fast : forall avx2 n st out prev m, validB m st -> validW m out -> - 2 ^ 63 + 6 <= n < 0 ->
  returns (ReadAllFast (AMD64 true avx2) n st out) m tt m /\ returns (ReadAllDeltaFast (AMD64 true avx2) n st out prev) m tt m.
Proof.
  intros avx2 n st out prev m [(? & ? & ?) ?] [(? & ? & ?) ?] Hn.
  split; (eapply (wp_returns (fun _ => True)); apply wp_ReadAllFast_neg || apply wp_ReadAllDeltaFast_neg); try done; lia.
Qed.
Example C37_example : neg_ok (-1) (bytes ex_mem ex_st) ex_out /\ ~ neg_ok (-9) (bytes ex_mem ex_st) ex_out /\
  panics (ReadAllScalar (-9) ex_st ex_out) ex_mem.
Proof.
  split; [right; vm_compute; repeat split; try discriminate; lia|].
  split; [intros [H|[H _]]; [discriminate|lia]|]. vm_compute. done.
Qed.

(** ** C38: a smaller count with the same control bytes gives a prefix *)
Lemma stream_lens_take n n' S : (n' <= n)%nat -> nctrl n' = nctrl n -> stream_lens n' S = take n' (stream_lens n S).
Proof. intros H E. unfold stream_lens. rewrite E, take_take, Nat.min_l by done. done. Qed.
Lemma cut_take_lens k ls d : cut (take k ls) d = take k (cut ls d).
Proof. revert ls d. induction k as [|k IH]; intros [|l ls] d; try done. cbn [take cut]. by rewrite IH. Qed.
Lemma decode_take n n' S : (n' <= n)%nat -> nctrl n' = nctrl n -> decode_stream n' S = take n' (decode_stream n S).
Proof. intros H E. unfold decode_stream. rewrite (stream_lens_take n n') by done. rewrite E, cut_take_lens, firstn_map. done. Qed.
Lemma sum_take k ls : Forall (fun l => (1 <= l <= 4)%nat) ls -> (k <= length ls)%nat -> (sum_nat (take k ls) + (length ls - k) <= sum_nat ls)%nat.
Proof.
  intros H. revert k. induction H as [|l ls Hl _ IH]; intros k Hk; [destruct k; cbn; lia|].
  destruct k as [|k].
  - specialize (IH 0%nat ltac:(lia)). cbn [take sum_nat fold_right length] in *. unfold sum_nat in *. lia.
  - specialize (IH k ltac:(cbn in Hk; lia)). cbn [take sum_nat fold_right length] in *. unfold sum_nat in *. lia.
Qed.
Lemma stream_size_take n n' S : (n' <= n)%nat -> nctrl n' = nctrl n -> (nctrl n <= length S)%nat ->
  (stream_size n' S + (n - n') <= stream_size n S)%nat.
Proof.
  intros H E Hc. unfold stream_size. rewrite (stream_lens_take n n'), E by done.
  pose proof (rD_zlen S (Z.of_nat n)) as Hl. unfold rD, rcl, zlen, decode_stream in Hl.
  rewrite Nat2Z.id, map_length, cut_length in Hl. specialize (Hl ltac:(lia) ltac:(lia)).
  pose proof (sum_take n' _ (stream_lens_range S n)). lia.
Qed.
Theorem C38_prefix : forall r n n' st out m, typed m -> validB m st -> validW m out -> 0 <= n' <= n -> n' <= s_len out ->
  (n' + 3) / 4 = (n + 3) / 4 -> well_formed (Z.to_nat n) (bytes m st) -> room r n st m ->
  exists m', returns (read r n' st out) m tt m' /\
    take (Z.to_nat n') (words m' out) = take (Z.to_nat n') (decode_stream (Z.to_nat n) (bytes m st)).
Proof.
  intros r n n' st out m Ht Hs Ho Hn Hl Hq Hwf Hr.
  assert (Hc : nctrl (Z.to_nat n') = nctrl (Z.to_nat n)) by (apply Nat2Z.inj; rewrite !WriterProof.nctrl_div, !Z2Nat.id by lia; done).
  assert (Hsz := stream_size_take (Z.to_nat n) (Z.to_nat n') (bytes m st) ltac:(lia) Hc (proj1 (proj2 Hwf))).
  assert (Hwf' : well_formed (Z.to_nat n') (bytes m st)) by (destruct Hwf as (? & ? & ?); split; [done|lia]).
  assert (Hr' : room r n' st m).
  { unfold room, reach in *. assert (overread n' <= overread n + (n - n')) by (unfold overread; destruct (Z.leb_spec n' 16), (Z.leb_spec n 16); clear -Hn Hq H H0; Z.to_euclidean_division_equations; lia).
    destruct (is_simd r); lia. }
  eexists. split; [apply read_run; try done; lia|]. rewrite rmem_take; [|apply Ho|apply dec_zlen with (out := out); [lia|done]|lia].
  apply decode_take; [lia|done].
Qed.
Theorem C38_prefix_delta : forall r n n' st out prev m, typed m -> validB m st -> validW m out -> 0 <= n' <= n -> n' <= s_len out ->
  is_u32 prev -> (n' + 3) / 4 = (n + 3) / 4 -> well_formed (Z.to_nat n) (bytes m st) -> room r n st m ->
  exists m', returns (read_delta r n' st out prev) m tt m' /\
    take (Z.to_nat n') (words m' out) = take (Z.to_nat n') (decode_stream_delta (Z.to_nat n) (bytes m st) prev).
Proof.
  intros r n n' st out prev m Ht Hs Ho Hn Hl Hp Hq Hwf Hr.
  assert (Hc : nctrl (Z.to_nat n') = nctrl (Z.to_nat n)) by (apply Nat2Z.inj; rewrite !WriterProof.nctrl_div, !Z2Nat.id by lia; done).
  assert (Hsz := stream_size_take (Z.to_nat n) (Z.to_nat n') (bytes m st) ltac:(lia) Hc (proj1 (proj2 Hwf))).
  assert (Hwf' : well_formed (Z.to_nat n') (bytes m st)) by (destruct Hwf as (? & ? & ?); split; [done|lia]).
  assert (Hr' : room r n' st m).
  { unfold room, reach in *. assert (overread n' <= overread n + (n - n')) by (unfold overread; destruct (Z.leb_spec n' 16), (Z.leb_spec n 16); clear -Hn Hq H H0; Z.to_euclidean_division_equations; lia).
    destruct (is_simd r); lia. }
  eexists. split; [apply read_delta_run; try done; lia|]. rewrite rmem_take; [|apply Ho|apply dec_delta_zlen with (out := out); [lia|done]|lia].
  unfold decode_stream_delta. rewrite (decode_take (Z.to_nat n)) by (done || lia).
  pose proof (pre_running_sums prev (decode_stream (Z.to_nat n) (bytes m st)) n') as G. unfold WriterProof.pre in G. rewrite G. done.
Qed.
Example C38_example : (6 + 3) / 4 = (7 + 3) / 4 /\
  take 6 (words (final (run (ReadAllFast (AMD64 true true) 6 ex_st ex_out) ex_mem)) ex_out) = [1; 2; 3; 4; 101124105; 197637].
Proof. vm_compute. done. Qed.

(** ** C13 (readers): any arguments whatever *)
Definition returns_or_panics {A} (p : prog A) (m : mem) : Prop :=
  match result (run p m) with Ok _ | Panicked => True | Faulted | Illegal | Diverged => False end.
Lemma decided_rp {A} (ok : Prop) (p : prog A) m v m' : (ok -> returns p m v m') -> (~ ok -> panics p m) -> ~ ~ returns_or_panics p m.
Proof.
  intros H1 H2 Hn. unfold returns_or_panics in Hn. apply Hn. assert (~ ok) as Hk.
  { intros Hk. destruct (H1 Hk) as [E _]. by rewrite E in Hn. }
  specialize (H2 Hk). unfold panics in H2. by rewrite H2 in *.
Qed.
Lemma rp_stable {A} (p : prog A) m : ~ ~ returns_or_panics p m -> returns_or_panics p m.
Proof. unfold returns_or_panics. destruct (result (run p m)); tauto. Qed.
Theorem C13_ReadAllScalar : forall n st out m, typed m -> validB m st -> validW m out -> - 2 ^ 63 <= n < 2 ^ 63 ->
  returns_or_panics (ReadAllScalar n st out) m /\
  accesses (ReadAllScalar n st out) m (reader_may st (s_len st) out (s_cap out)).
Proof.
  intros n st out m Ht Hs Ho Hn. destruct (Z.lt_ge_cases n 0) as [Hneg|Hpos].
  - destruct (C37_negative_scalar n st out m Ht Hs Ho ltac:(lia)) as (G1 & G2 & G3). split.
    + apply rp_stable. intros Hx. assert (~ neg_ok n (bytes m st) out) as Hk.
      { intros Hk. destruct (G2 Hk) as (m' & [E _] & _). unfold returns_or_panics in Hx. by rewrite E in Hx. }
      apply Hx. unfold returns_or_panics. by rewrite (G1 Hk).
    + eapply Forall_impl; [exact G3|]. intros e. apply reader_may_mono; [lia|]. destruct Ho as [(? & ? & ?) ?]. lia.
  - destruct (ReadAllScalar_run m st out n Ht Hs Ho ltac:(lia)) as (G1 & G2 & G3). split; [by eapply rp_stable, decided_rp|].
    eapply Forall_impl; [exact G3|]. intros e. apply reader_may_mono; lia.
Qed.
Theorem C13_ReadAllDeltaScalar : forall n st out prev m, typed m -> validB m st -> validW m out -> - 2 ^ 63 <= n < 2 ^ 63 ->
  returns_or_panics (ReadAllDeltaScalar n st out prev) m /\
  accesses (ReadAllDeltaScalar n st out prev) m (reader_may st (s_len st) out (s_cap out)).
Proof.
  intros n st out prev m Ht Hs Ho Hn. destruct (Z.lt_ge_cases n 0) as [Hneg|Hpos].
  - destruct (C37_negative_scalar_delta n st out prev m Ht Hs Ho ltac:(lia)) as (G1 & G2 & G3). split.
    + apply rp_stable. intros Hx. assert (~ neg_ok n (bytes m st) out) as Hk.
      { intros Hk. destruct (G2 Hk) as (m' & [E _] & _). unfold returns_or_panics in Hx. by rewrite E in Hx. }
      apply Hx. unfold returns_or_panics. by rewrite (G1 Hk).
    + eapply Forall_impl; [exact G3|]. intros e. apply reader_may_mono; [lia|]. destruct Ho as [(? & ? & ?) ?]. lia.
  - destruct (ReadAllDeltaScalar_run m st out n Ht Hs Ho prev ltac:(lia)) as (G1 & G2 & G3). split; [by eapply rp_stable, decided_rp|].
    eapply Forall_impl; [exact G3|]. intros e. apply reader_may_mono; lia.
Qed.
