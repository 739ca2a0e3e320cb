(** * From rules to statements about [run] *)
From stdpp Require Import prelude gmap list.
From Coq Require Import ZArith Lia.
From Verif Require Import Spec SpecLemmas GoSem Tables Shared Asm Wp Encode Decode TableProof EncodeProof EncodeProof2 SimdProof AsmProof DecodeProof DecodeProof2 Writer WriterProof WriterProof2 Reader ReaderProof ReaderProof2 ReaderProof3 ReaderProof4 Api.
Local Open Scope Z_scope.
Implicit Types (F : event -> Prop) (pn : Prop).

Lemma wp_returns {A} F (p : prog A) m v m' : wp F False p m (fun a m1 => a = v /\ m1 = m') ->
  returns p m v m' /\ accesses p m F.
Proof.
  intros H. apply wp_run in H as [H1 H2]. unfold returns, accesses.
  destruct (result (run p m)) as [a| | | |]; try done. destruct H2 as [-> <-]. done.
Qed.
(** Either the function returns as predicted and [ok] holds, or it panics and [ok] does not. *)
Lemma wp_decides {A} F (ok : Prop) (p : prog A) m v m' :
  wp F (~ ok) p m (fun a m1 => ok /\ a = v /\ m1 = m') ->
  (ok -> returns p m v m') /\ (~ ok -> panics p m) /\ accesses p m F.
Proof.
  intros H. apply wp_run in H as [H1 H2]. unfold returns, panics, accesses.
  destruct (result (run p m)) as [a| | | |]; try done.
  - destruct H2 as (H & -> & <-). done.
Qed.
Lemma returns_det {A} (p : prog A) m v m' v' m'' : returns p m v m' -> returns p m v' m'' -> v = v' /\ m' = m''.
Proof. intros [H1 H2] [H3 H4]. split; congruence. Qed.

(** Sequencing *)
Lemma run_bind {A B} (p : prog A) (f : A -> prog B) m :
  run (bind p f) m =
  match result (run p m) with
  | Ok a => (result (run (f a) (final (run p m))), final (run (f a) (final (run p m))), trace (run p m) ++ trace (run (f a) (final (run p m))))
  | Panicked => (Panicked, final (run p m), trace (run p m))
  | Faulted => (Faulted, final (run p m), trace (run p m))
  | Illegal => (Illegal, final (run p m), trace (run p m))
  | Diverged => (Diverged, final (run p m), trace (run p m))
  end.
Proof.
  unfold result, final, trace. revert m. induction p as [a| | | | |b i k IH|b i v k IH|b i k IH|b i v k IH|b n k IH]; intros m; cbn.
  - by destruct (run (f a) m) as [[? ?] ?].
  - done.
  - done.
  - done.
  - done.
  - destruct (hget (mb m) b i) as [v|]; [|done]. rewrite (IH v m). destruct (run (k v) m) as [[[] ?] ?]; cbn; try done.
  - destruct (hput (mb m) b i v) as [h|]; [|done]. rewrite (IH (Mem h (mw m))). destruct (run k (Mem h (mw m))) as [[[] ?] ?]; cbn; try done.
  - destruct (hget (mw m) b i) as [v|]; [|done]. rewrite (IH v m). destruct (run (k v) m) as [[[] ?] ?]; cbn; try done.
  - destruct (hput (mw m) b i v) as [h|]; [|done]. rewrite (IH (Mem (mb m) h)). destruct (run k (Mem (mb m) h)) as [[[] ?] ?]; cbn; try done.
  - destruct (mb m !! b); [done|]. rewrite IH. destruct (run k _) as [[[] ?] ?]; cbn; try done.
Qed.
Lemma returns_bind {A B} (p : prog A) (f : A -> prog B) m v m1 w m2 :
  returns p m v m1 -> returns (f v) m1 w m2 -> returns (bind p f) m w m2.
Proof. intros [H1 H2] [H3 H4]. unfold returns. rewrite run_bind, H1, H2. unfold result, final in *. cbn. by rewrite H3, H4. Qed.

Lemma fits_inb h s : fits h s <-> inb h s.
Proof. done. Qed.
Lemma bytes_sub m s : bytes m s = sub (s_off s) (s_len s) (blk (mb m) (s_blk s)).
Proof. done. Qed.
Lemma words_sub m s : words m s = sub (s_off s) (s_len s) (blk (mw m) (s_blk s)).
Proof. done. Qed.
Lemma words_nums m s : words m s = nums_of s m.
Proof. done. Qed.
Lemma contents_zlen h s : fits h s -> zlen (contents h s) = s_len s.
Proof. intros (? & ? & ?). by apply sub_zlen; [lia|lia|unfold zlen, blk; lia]. Qed.
Lemma contents_length h s : fits h s -> length (contents h s) = Z.to_nat (s_len s).
Proof. intros H. apply contents_zlen in H. unfold zlen in H. lia. Qed.
Lemma typed_blk_b m b : typed m -> Forall is_byte (blk (mb m) b).
Proof. intros [H _]. unfold blk. destruct (mb m !! b) eqn:E; [by eapply H|constructor]. Qed.
Lemma typed_blk_w m b : typed m -> Forall is_u32 (blk (mw m) b).
Proof. intros [_ H]. unfold blk. destruct (mw m !! b) eqn:E; [by eapply H|constructor]. Qed.
Lemma typed_bytes m s : typed m -> Forall is_byte (bytes m s).
Proof. intros H. rewrite bytes_sub. apply Forall_sub. by apply typed_blk_b. Qed.
Lemma typed_words m s : typed m -> Forall is_u32 (words m s).
Proof. intros H. rewrite words_sub. apply Forall_sub. by apply typed_blk_w. Qed.

(** ** The effect of the readers *)
Lemma put_lookup_ne h b l b' : b' <> b -> put h b l !! b' = h !! b'.
Proof. intros. unfold put. destruct (h !! b); [|done]. by apply lookup_insert_ne. Qed.
Lemma hget_blk h b i : hget h b i = if 0 <=? i then blk h b !! Z.to_nat i else None.
Proof. unfold hget, blk. destruct (0 <=? i), (h !! b); done. Qed.
Lemma put_same_except h b o R : 0 <= o -> o + zlen R <= zlen (blk h b) -> same_except h (put h b (splice o R (blk h b))) b o (zlen R).
Proof.
  intros Ho Hl. split; [intros; by apply put_lookup_ne|].
  assert (E : blk (put h b (splice o R (blk h b))) b = splice o R (blk h b)) by (apply blk_put_eq; by apply splice_length).
  split.
  - change (length (blk (put h b (splice o R (blk h b))) b) = length (blk h b)). rewrite E. by apply splice_length.
  - intros i Hi. rewrite !hget_blk, E. destruct (Z.leb_spec 0 i); [|done]. rewrite splice_lookup by lia.
    repeat case_decide; try done; unfold zlen in *; lia.
Qed.
Lemma rmem_spec m out R : fits (mw m) out -> zlen R <= s_cap out ->
  mb (rmem m out R) = mb m /\ same_except (mw m) (mw (rmem m out R)) (s_blk out) (s_off out) (zlen R) /\
  sub (s_off out) (zlen R) (blk (mw (rmem m out R)) (s_blk out)) = R.
Proof.
  intros Hf HR. assert (Hf' := Hf). destruct Hf as (H1 & H2 & H3). split; [done|]. split.
  - unfold rmem. cbn. apply put_same_except; unfold zlen, blk in *; lia.
  - destruct (rmem_blk m out R Hf' HR) as [-> _]. apply sub_splice_in; unfold zlen, blk in *; lia.
Qed.
Lemma rmem_words m out R : fits (mw m) out -> zlen R <= s_len out ->
  firstn (length R) (words (rmem m out R) out) = R.
Proof.
  intros Hf HR. assert (Hf' := Hf). destruct Hf as (H1 & H2 & H3).
  destruct (rmem_spec m out R Hf' ltac:(lia)) as (_ & _ & E). rewrite <- E at 3.
  rewrite words_sub. unfold sub. rewrite take_take. f_equal. unfold zlen in *. lia.
Qed.
Lemma splice_forall {P : Z -> Prop} o R l : Forall P R -> Forall P l -> Forall P (splice o R l).
Proof. intros. unfold splice. apply Forall_app. split; [by apply Forall_take|]. apply Forall_app. split; [done|by apply Forall_drop]. Qed.
Lemma put_typed (P : Z -> Prop) h b l : Forall P l -> (forall b l, h !! b = Some l -> Forall P l) ->
  forall b' l', put h b l !! b' = Some l' -> Forall P l'.
Proof.
  intros Hl Hh b' l'. unfold put. destruct (h !! b) eqn:E; [|apply Hh].
  destruct (decide (b' = b)) as [->|]; [rewrite lookup_insert; congruence|rewrite lookup_insert_ne by done; apply Hh].
Qed.
Lemma rmem_typed m out R : typed m -> Forall is_u32 R -> typed (rmem m out R).
Proof.
  intros Ht HR. split; [apply Ht|]. cbn. apply put_typed; [|apply Ht]. apply splice_forall; [done|]. by apply typed_blk_w.
Qed.
Lemma rmem_validW m out R s : fits (mw m) out -> zlen R <= s_cap out -> validW m s -> validW (rmem m out R) s.
Proof. intros H HR [Hs Hc]. split; [|done]. by apply rmem_inb. Qed.
Lemma rmem_validB m out R s : validB m s -> validB (rmem m out R) s.
Proof. done. Qed.
Lemma decode_u32 n S : Forall is_byte S -> Forall is_u32 (decode_stream n S).
Proof.
  intros HS. unfold decode_stream. assert (Hd : Forall is_byte (skipn (nctrl n) S)) by (by apply Forall_drop).
  revert Hd. generalize (skipn (nctrl n) S) as d. pose proof (stream_lens_range S n) as Hl. revert Hl.
  generalize (stream_lens n S) as ls. induction 1 as [|k ls Hk _ IH]; intros d Hd; [constructor|]. cbn [cut map]. constructor.
  - assert (Hf : Forall is_byte (firstn k d)) by (by apply Forall_take). pose proof (le_val_range _ Hf) as Hr.
    assert ((length (firstn k d) <= 4)%nat) by (rewrite firstn_length; lia).
    assert (256 ^ Z.of_nat (length (firstn k d)) <= 256 ^ 4) by (apply Z.pow_le_mono_r; lia).
    unfold is_u32. change (256 ^ 4) with (2 ^ 32) in *. lia.
  - apply IH. by apply Forall_drop.
Qed.

(** ** The effect of the encoders *)
Definition bmem (m : mem) (out : slice) (D : list Z) : mem :=
  setb m (s_blk out) (splice (s_off out) D (blk (mb m) (s_blk out))).
Lemma bmem_blk m out D : fits (mb m) out -> zlen D <= s_cap out ->
  blk (mb (bmem m out D)) (s_blk out) = splice (s_off out) D (blk (mb m) (s_blk out)).
Proof.
  intros (? & ? & ?) HD. unfold bmem, setb. cbn. apply blk_put_eq. apply splice_length; unfold zlen, blk in *; lia.
Qed.
Lemma bmem_spec m out D : fits (mb m) out -> zlen D <= s_len out -> stores_bytes m (bmem m out D) out D.
Proof.
  intros Hf HD. assert (Hf' := Hf). destruct Hf as (H1 & H2 & H3). split; [done|]. split.
  - unfold bmem, setb. cbn. apply put_same_except; unfold zlen, blk in *; lia.
  - rewrite bytes_sub, bmem_blk by (done || lia). unfold sub. rewrite take_take, Nat.min_l by (unfold zlen in *; lia).
    pose proof (sub_splice_in (s_off out) D (blk (mb m) (s_blk out))) as G. unfold sub, zlen in G. rewrite Nat2Z.id in G.
    apply G; unfold zlen, blk in *; lia.
Qed.
Lemma rmem_stores m out R : fits (mw m) out -> zlen R <= s_len out -> stores_words m (rmem m out R) out R.
Proof.
  intros Hf HR. destruct (rmem_spec m out R Hf) as (G1 & G2 & _); [destruct Hf as (? & ? & ?); lia|].
  split; [done|]. split; [done|]. by apply rmem_words.
Qed.
Lemma bmem_typed m out D : typed m -> Forall is_byte D -> typed (bmem m out D).
Proof.
  intros Ht HD. split; [|apply Ht]. cbn. apply put_typed; [|apply Ht]. apply splice_forall; [done|]. by apply typed_blk_b.
Qed.

(** ** Writers *)
Section writers.
Context (m : mem) (B : nat) (inp : slice).
Context (Ht : typed m) (Hv : validW m inp) (Hfr : mb m !! B = None).

Lemma writer_pre X : wpre (writer_may B (wN X) inp) m B inp (wN X).
Proof.
  destruct Hv as [Hf Hc]. split; try done.
  - by apply typed_blk_w.
  - destruct Hf as (? & ? & ?). unfold max_elems. lia.
Qed.
Lemma WriteAllScalar_run : let X := words m inp in
  returns (WriteAllScalar B inp) m (wret B X) (wmem m B X) /\ accesses (WriteAllScalar B inp) m (writer_may B (wN X) inp).
Proof. intros X. apply wp_returns, wp_WriteAllScalar; [apply writer_pre|done]. Qed.
Lemma WriteAllDeltaScalar_run prev : let X := deltas prev (words m inp) in
  returns (WriteAllDeltaScalar B inp prev) m (wret B X) (wmem m B X) /\ accesses (WriteAllDeltaScalar B inp prev) m (writer_may B (wN X) inp).
Proof. intros X. apply wp_returns, wp_WriteAllDeltaScalar; [apply writer_pre|done]. Qed.
Lemma WriteAllFast_run : let X := words m inp in
  returns (WriteAllFast (AMD64 true true) B inp) m (wret B X) (wmem m B X) /\ accesses (WriteAllFast (AMD64 true true) B inp) m (writer_may B (wN X) inp).
Proof. intros X. apply wp_returns, wp_WriteAllFast; [apply writer_pre|done]. Qed.
Lemma WriteAllDeltaFast_run prev : is_u32 prev -> let X := deltas prev (words m inp) in
  returns (WriteAllDeltaFast (AMD64 true true) B inp prev) m (wret B X) (wmem m B X) /\ accesses (WriteAllDeltaFast (AMD64 true true) B inp prev) m (writer_may B (wN X) inp).
Proof. intros Hp X. apply wp_returns, wp_WriteAllDeltaFast; [done|apply writer_pre|done]. Qed.
Lemma WriteAll_run a : let X := words m inp in
  returns (WriteAll a B inp) m (wret B X) (wmem m B X) /\ accesses (WriteAll a B inp) m (writer_may B (wN X) inp).
Proof. destruct a as [[] []|]; [apply WriteAllFast_run|apply WriteAllScalar_run..]. Qed.
Lemma WriteAllDelta_run a prev : is_u32 prev -> let X := deltas prev (words m inp) in
  returns (WriteAllDelta a B inp prev) m (wret B X) (wmem m B X) /\ accesses (WriteAllDelta a B inp prev) m (writer_may B (wN X) inp).
Proof. intros Hp. destruct a as [[] []|]; [by apply WriteAllDeltaFast_run|apply WriteAllDeltaScalar_run..]. Qed.
End writers.

(** ** Readers *)
Section readers.
Context (m : mem) (st out : slice) (n : Z).
Context (Ht : typed m) (Hs : validB m st) (Ho : validW m out).
Let S := bytes m st.

Lemma reader_rok F : 0 <= n ->
  (forall j, s_off st <= j < s_off st + s_len st -> j < s_off st + rdp S n n -> F (ERdB (s_blk st) j)) ->
  (forall j, s_off out <= j < s_off out + n -> j < s_off out + s_cap out -> F (EWrW (s_blk out) j)) ->
  rok F m st out n S.
Proof.
  intros Hn H1 H2. destruct Hs as [Hs1 Hs2], Ho as [Ho1 Ho2]. split; try done. by apply typed_blk_b.
Qed.

Lemma wf_rdp : 0 <= n -> well_formed (Z.to_nat n) S <-> rdp S n n <= s_len st.
Proof.
  intros Hn. destruct Hs as [Hs1 Hs2]. assert (HSl : zlen S = s_len st) by (by apply contents_zlen).
  rewrite rdp_end by done. unfold well_formed. unfold zlen in HSl. unfold stream_size. split; [lia|].
  intros. split; [by apply typed_bytes|]. lia.
Qed.

(** Exactly when the scalar readers return, and what they do. *)
Definition scalar_ok : Prop := well_formed (Z.to_nat n) S /\ okout n out.

Lemma ReadAllScalar_run : 0 <= n < 2 ^ 63 ->
  let D := decode_stream (Z.to_nat n) S in
  (scalar_ok -> returns (ReadAllScalar n st out) m tt (rmem m out D)) /\
  (~ scalar_ok -> panics (ReadAllScalar n st out) m) /\
  accesses (ReadAllScalar n st out) m (reader_may st (Z.min (s_len st) (Z.of_nat (stream_size (Z.to_nat n) S))) out (Z.min n (s_cap out))).
Proof.
  intros Hn D. apply wp_decides. unfold scalar_ok. pose proof (wf_rdp ltac:(lia)) as Hw. rewrite <- rdp_end by lia.
  assert (HSl : zlen S = s_len st) by (apply contents_zlen, Hs). destruct Hs as [Hs1 Hs2], Ho as [Ho1 Ho2].
  destruct (Z.le_gt_cases n (2 ^ 62)) as [Hle|Hgt].
  - apply wp_ReadAllScalar with (S := S); [|done|destruct Hs1 as (? & ? & ?); lia| |].
    + apply reader_rok; [lia| |]; cbn; unfold within; intros; split; try done; lia.
    + intros H1 H2. split; [split; [by apply Hw|done]|]. split; done.
    + intros H [H1 H2]. apply Hw in H1. destruct H; [lia|done].
  - destruct Hs1 as (? & ? & ?), Ho1 as (? & ? & ?). apply wp_ReadAllScalar_huge; [lia|unfold max_elems; lia|lia|].
    intros [Hx _]. apply Hw in Hx. pose proof (rdp_ge S n n). pose proof (rcl_bounds n ltac:(lia)). lia.
Qed.
Lemma ReadAllDeltaScalar_run prev : 0 <= n < 2 ^ 63 ->
  let D := decode_stream_delta (Z.to_nat n) S prev in
  (scalar_ok -> returns (ReadAllDeltaScalar n st out prev) m tt (rmem m out D)) /\
  (~ scalar_ok -> panics (ReadAllDeltaScalar n st out prev) m) /\
  accesses (ReadAllDeltaScalar n st out prev) m (reader_may st (Z.min (s_len st) (Z.of_nat (stream_size (Z.to_nat n) S))) out (Z.min n (s_cap out))).
Proof.
  intros Hn D. apply wp_decides. unfold scalar_ok. pose proof (wf_rdp ltac:(lia)) as Hw. rewrite <- rdp_end by lia.
  assert (HSl : zlen S = s_len st) by (apply contents_zlen, Hs). destruct Hs as [Hs1 Hs2], Ho as [Ho1 Ho2].
  destruct (Z.le_gt_cases n (2 ^ 62)) as [Hle|Hgt].
  - apply wp_ReadAllDeltaScalar with (S := S); [| |done|destruct Hs1 as (? & ? & ?); lia| |].
    + apply reader_rok; [lia| |]; cbn; unfold within; intros; split; try done; lia.
    + cbn; unfold within; intros; split; try done; lia.
    + intros H1 H2. split; [split; [by apply Hw|done]|]. split; done.
    + intros H [H1 H2]. apply Hw in H1. destruct H; [lia|done].
  - destruct Hs1 as (? & ? & ?), Ho1 as (? & ? & ?). apply wp_ReadAllDeltaScalar_huge; [lia|unfold max_elems; lia|lia|].
    intros [Hx _]. apply Hw in Hx. pose proof (rdp_ge S n n). pose proof (rcl_bounds n ltac:(lia)). lia.
Qed.

(** The fast readers, on a complete stream with room for the over-read. *)
Lemma reader_rfast F : 0 <= n <= s_len out -> well_formed (Z.to_nat n) S ->
  s_off st + rover S n <= zlen (blk (mb m) (s_blk st)) ->
  (forall j, s_off st <= j < s_off st + rover S n -> F (ERdB (s_blk st) j)) ->
  (forall j, s_off out <= j < s_off out + n -> F (EWrW (s_blk out) j)) ->
  rfast F m st out n S.
Proof.
  intros Hn Hwf Hroom H1 H2. apply wf_rdp in Hwf; [|lia].
  assert (HSl : zlen S = s_len st) by (apply contents_zlen, Hs).
  pose proof (rover_slack S n ltac:(lia) ltac:(pose proof (rdp_ge S n n); lia)).
  split; [|done|lia|done|done]. apply reader_rok; [lia| |].
  - intros. apply H1. lia.
  - intros. apply H2. lia.
Qed.
Lemma ReadAllFast_run avx2 : 0 <= n <= s_len out -> well_formed (Z.to_nat n) S ->
  s_off st + rover S n <= zlen (blk (mb m) (s_blk st)) ->
  returns (ReadAllFast (AMD64 true avx2) n st out) m tt (rmem m out (decode_stream (Z.to_nat n) S)) /\
  accesses (ReadAllFast (AMD64 true avx2) n st out) m (reader_may st (rover S n) out n).
Proof.
  intros Hn Hwf Hroom. apply wp_returns. apply wp_ReadAllFast with (S := S).
  - apply reader_rfast; try done.
  - destruct Hs as [(? & ? & ?) ?]. lia.
  - done.
Qed.
Lemma ReadAllDeltaFast_run avx2 prev : is_u32 prev -> 0 <= n <= s_len out -> well_formed (Z.to_nat n) S ->
  s_off st + rover S n <= zlen (blk (mb m) (s_blk st)) ->
  returns (ReadAllDeltaFast (AMD64 true avx2) n st out prev) m tt (rmem m out (decode_stream_delta (Z.to_nat n) S prev)) /\
  accesses (ReadAllDeltaFast (AMD64 true avx2) n st out prev) m (reader_may st (rover S n) out n).
Proof.
  intros Hp Hn Hwf Hroom. apply wp_returns. apply wp_ReadAllDeltaFast with (S := S).
  - apply reader_rfast; try done.
  - done.
  - done.
  - destruct Hs as [(? & ? & ?) ?]. lia.
  - done.
Qed.
End readers.
