(** * What the portable encoders and decoders of eight numbers leave in memory when they panic *)
From stdpp Require Import prelude gmap list.
From Coq Require Import ZArith Lia.
From Verif Require Import Spec SpecLemmas GoSem Tables Shared Asm Wp Encode EncodeProof EncodeProof2 TableProof SimdProof AsmProof Decode DecodeProof DecodeProof2 WriterProof WriterProof2 Reader ReaderProof ReaderProof2 Api ApiLemmas UtilProof Outcome.
Local Open Scope Z_scope.
Implicit Types (P : mem -> Prop).

Lemma bmem_bmem m out A B o : fits (mb m) out -> s_blk o = s_blk out -> s_off o = s_off out + zlen A -> zlen A + zlen B <= s_cap out ->
  bmem (bmem m out A) o B = bmem m out (A ++ B).
Proof.
  intros (F1 & F2 & F3) E1 E2 HL. pose proof (zlen_nonneg A). pose proof (zlen_nonneg B). unfold bmem at 1. rewrite E1, E2.
  rewrite bmem_blk; [|done|lia]. unfold bmem. rewrite setb_setb. rewrite splice_app_l; [done|lia|unfold zlen, blk in *; lia].
Qed.
Lemma take_enc_app (A B : list Z) k : length A = 4%nat -> (4 <= k)%nat -> take k (A ++ B) = A ++ take (k - 4) B.
Proof. intros HA Hk. rewrite <- HA in *. by apply take_app_ge. Qed.

(** encode.go:114-121 *)
Lemma oc_Put8uint32Scalar inp out m (Q : Z -> mem -> Prop) P :
  let xs := sub (s_off inp) 8 (blk (mw m) (s_blk inp)) in
  inb (mw m) inp -> inb (mb m) out -> Forall is_u32 (blk (mw m) (s_blk inp)) ->
  (8 <= s_len inp -> zlen (enc_data xs) <= s_len out -> exists c, Q c (bmem m out (enc_data xs))) ->
  (s_len inp < 4 -> P m) ->
  (4 <= s_len inp < 8 -> zlen (enc_data (take 4 xs)) <= s_len out -> P (bmem m out (enc_data (take 4 xs)))) ->
  (forall k, (k < 8)%nat -> 4 <= s_len inp -> ((k < 4)%nat \/ 8 <= s_len inp) ->
     zlen (enc_data (take k xs)) <= s_len out < zlen (enc_data (take (S k) xs)) -> P (bmem m out (enc_data (take k xs)))) ->
  outcome (Put8uint32Scalar inp out) m (fun _ m' => exists c, Q c m') P.
Proof.
  intros xs Hi Ho Hu HQ HP1 HP2 HP3. unfold Put8uint32Scalar.
  set (W := blk (mw m) (s_blk inp)) in *.
  set (A := sub (s_off inp) 4 W). set (B := sub (s_off inp + 4) 4 W).
  assert (Hi' := Hi). destruct Hi as (Hi1 & Hi2 & Hi3). assert (Ho' := Ho). destruct Ho as (Ho1 & Ho2 & Ho3).
  assert (Exs : xs = A ++ B) by (unfold xs, A, B; rewrite <- sub_app by lia; done).
  apply oc_bind, oc_Put4uint32Scalar; [done|done|done| |done|]; fold W A.
  2:{ intros H4 k [Hk Hst]. assert (HlA : length A = 4%nat) by (apply sub_length_exact; subst W; lia).
      assert (T : forall j, (j <= 4)%nat -> take j xs = take j A) by (intros; rewrite Exs; apply take_app_le; lia).
      rewrite <- (T k) by lia. apply HP3; [lia|lia|lia|]. by rewrite !T by lia. }
  intros H4 HA. assert (HlA : length A = 4%nat) by (apply sub_length_exact; subst W; lia).
  assert (TA : take 4 xs = A) by (rewrite Exs; by apply take_app_alt).
  cbv zeta. rewrite ControlByteToSize_ctrl_of by done. pose proof (zlen_nonneg (enc_data A)).
  apply oc_bind, oc_slice_from; [|lia]. intros _. apply oc_bind, oc_slice_from; [|lia]. intros _.
  set (m1 := bmem m out (enc_data A)). set (o := Slice (s_blk out) _ _ _).
  assert (MM : forall D, zlen (enc_data A) + zlen D <= s_len out -> bmem m1 o D = bmem m out (enc_data A ++ D)).
  { intros. unfold m1. apply bmem_bmem; [done|done|done|lia]. }
  apply oc_bind, oc_Put4uint32Scalar; cbn [s_blk s_off s_len s_cap o]; change (mw m1) with (mw m); fold W B.
  - repeat split; cbn [s_blk s_off s_len s_cap]; lia.
  - apply bmem_inb; [done|lia|]. repeat split; unfold o; cbn [s_blk s_off s_len s_cap]; lia.
  - done.
  - intros H8 HB. apply oc_ret. rewrite MM by lia. rewrite <- enc_data_app, <- Exs. apply HQ; [lia|]. rewrite Exs, enc_data_app, zlen_app. lia.
  - intros H8. unfold m1. rewrite <- TA. apply HP2; [lia|]. by rewrite TA.
  - intros H8 k [Hk Hst]. cbn [s_len o] in Hst. assert (HlB : length B = 4%nat) by (apply sub_length_exact; subst W; lia). rewrite HlB in Hk.
    rewrite MM by lia. rewrite <- enc_data_app.
    assert (T : forall j, A ++ take j B = take (4 + j) xs) by (intros; rewrite Exs, take_enc_app by lia; do 2 f_equal; lia).
    rewrite T. apply HP3; [lia|lia|lia|]. rewrite <- Nat.add_succ_r, <- !T, !enc_data_app, !zlen_app. lia.
Qed.

(** encode.go:177-184 *)
Lemma oc_Put8uint32DeltaScalar inp out prev m (Q : Z -> mem -> Prop) P :
  let xs := deltas prev (sub (s_off inp) 8 (blk (mw m) (s_blk inp))) in
  inb (mw m) inp -> inb (mb m) out ->
  (8 <= s_len inp -> zlen (enc_data xs) <= s_len out -> exists c, Q c (bmem m out (enc_data xs))) ->
  (s_len inp < 4 -> P m) ->
  (4 <= s_len inp < 8 -> zlen (enc_data (take 4 xs)) <= s_len out -> P (bmem m out (enc_data (take 4 xs)))) ->
  (forall k, (k < 8)%nat -> 4 <= s_len inp -> ((k < 4)%nat \/ 8 <= s_len inp) ->
     zlen (enc_data (take k xs)) <= s_len out < zlen (enc_data (take (S k) xs)) -> P (bmem m out (enc_data (take k xs)))) ->
  outcome (Put8uint32DeltaScalar inp out prev) m (fun _ m' => exists c, Q c m') P.
Proof.
  intros xs Hi Ho HQ HP1 HP2 HP3. unfold Put8uint32DeltaScalar.
  set (W := blk (mw m) (s_blk inp)) in *.
  set (A := deltas prev (sub (s_off inp) 4 W)). set (B := deltas (at_ W (s_off inp + 3)) (sub (s_off inp + 4) 4 W)).
  assert (Hi' := Hi). destruct Hi as (Hi1 & Hi2 & Hi3). assert (Ho' := Ho). destruct Ho as (Ho1 & Ho2 & Ho3).
  assert (exists R, xs = A ++ R) as [R HR].
  { unfold xs. change 8 with (4 + 4). rewrite sub_app by lia. rewrite deltas_app. by eexists. }
  apply oc_bind, oc_Put4uint32DeltaScalar; [done|done| |done|]; fold W A.
  2:{ intros H4 k [Hk Hst]. assert (HlA : length A = 4%nat) by (unfold A; rewrite deltas_length; apply sub_length_exact; subst W; lia).
      assert (T : forall j, (j <= 4)%nat -> take j xs = take j A) by (intros; rewrite HR; apply take_app_le; lia).
      rewrite <- (T k) by lia. apply HP3; [lia|lia|lia|]. by rewrite !T by lia. }
  intros H4 HA. assert (HlA : length A = 4%nat) by (unfold A; rewrite deltas_length; apply sub_length_exact; subst W; lia).
  assert (TA : take 4 xs = A) by (rewrite HR; by apply take_app_alt).
  cbv zeta. rewrite ControlByteToSize_ctrl_of by done. pose proof (zlen_nonneg (enc_data A)).
  apply oc_bind, oc_slice_from; [|lia]. intros _. apply oc_bind, oc_slice_from; [|lia]. intros _.
  set (m1 := bmem m out (enc_data A)). set (o := Slice (s_blk out) _ _ _).
  assert (MM : forall D, zlen (enc_data A) + zlen D <= s_len out -> bmem m1 o D = bmem m out (enc_data A ++ D)).
  { intros. unfold m1. apply bmem_bmem; [done|done|done|lia]. }
  apply oc_bind, oc_getW; [done| |lia]. intros _. change (mw m1) with (mw m). fold W.
  apply oc_bind, oc_Put4uint32DeltaScalar; cbn [s_blk s_off s_len s_cap o]; change (mw m1) with (mw m); fold W B.
  - repeat split; cbn [s_blk s_off s_len s_cap]; lia.
  - apply bmem_inb; [done|lia|]. repeat split; unfold o; cbn [s_blk s_off s_len s_cap]; lia.
  - intros H8 HB. assert (Exs : xs = A ++ B) by (apply deltas_sub8; subst W; lia).
    apply oc_ret. rewrite MM by lia. rewrite <- enc_data_app, <- Exs. apply HQ; [lia|]. rewrite Exs, enc_data_app, zlen_app. lia.
  - intros H8. unfold m1. rewrite <- TA. apply HP2; [lia|]. by rewrite TA.
  - intros H8 k [Hk Hst]. cbn [s_len o] in Hst. assert (Exs : xs = A ++ B) by (apply deltas_sub8; subst W; lia).
    assert (HlB : length B = 4%nat) by (unfold B; rewrite deltas_length; apply sub_length_exact; subst W; lia). rewrite HlB in Hk.
    rewrite MM by lia. rewrite <- enc_data_app.
    assert (T : forall j, A ++ take j B = take (4 + j) xs) by (intros; rewrite Exs, take_enc_app by lia; do 2 f_equal; lia).
    rewrite T. apply HP3; [lia|lia|lia|]. rewrite <- Nat.add_succ_r, <- !T, !enc_data_app, !zlen_app. lia.
Qed.

(** ** Decoders *)
Definition nums_at (ls : list nat) (k : nat) (D : list Z) : list Z := map le_val (cut (take k ls) D).
Definition size_at (ls : list nat) (k : nat) : Z := Z.of_nat (sum_nat (take k ls)).
Lemma size_at_lo c0 c1 k : (k <= 4)%nat -> size_at (ctrl_lens c0 ++ ctrl_lens c1) k = sizek c0 k.
Proof. intros. unfold size_at, sizek. by rewrite take_app_le by (rewrite ctrl_lens_length; lia). Qed.
Lemma size_at_hi c0 c1 k : size_at (ctrl_lens c0 ++ ctrl_lens c1) (4 + k) = sizek c0 4 + sizek c1 k.
Proof.
  unfold size_at, sizek. rewrite take_app_ge by (rewrite ctrl_lens_length; lia). rewrite ctrl_lens_length, sum_nat_app.
  replace (4 + k - 4)%nat with k by lia. rewrite (take_ge (ctrl_lens c0)) by (by rewrite ctrl_lens_length). lia.
Qed.
Lemma nums_at_lo c0 c1 k D : (k <= 4)%nat -> nums_at (ctrl_lens c0 ++ ctrl_lens c1) k D = numsk c0 k D.
Proof. intros. unfold nums_at, numsk. by rewrite take_app_le by (rewrite ctrl_lens_length; lia). Qed.
Lemma nums_at_hi c0 c1 k D : nums_at (ctrl_lens c0 ++ ctrl_lens c1) (4 + k) D = nums4 c0 D ++ numsk c1 k (drop (sum_nat (ctrl_lens c0)) D).
Proof.
  unfold nums_at, numsk, nums4. rewrite take_app_ge by (rewrite ctrl_lens_length; lia). rewrite ctrl_lens_length.
  replace (4 + k - 4)%nat with k by lia. rewrite cut_app, map_app. done.
Qed.
Lemma rmem_rmem m out A B o : inb (mw m) out -> s_blk o = s_blk out -> s_off o = s_off out + zlen A -> zlen A + zlen B <= s_cap out ->
  rmem (rmem m out A) o B = rmem m out (A ++ B).
Proof.
  intros (F1 & F2 & F3) E1 E2 HL. pose proof (zlen_nonneg A). pose proof (zlen_nonneg B). unfold rmem at 1. rewrite E1, E2.
  destruct (rmem_blk m out A) as [-> _]; [done|lia|]. unfold rmem. rewrite setw_setw. rewrite splice_app_l; [done|lia|lia].
Qed.

(** decode.go:49-55 *)
Lemma oc_Get8uint32Scalar inp out c0 c1 m (Q : mem -> Prop) P :
  let ls := ctrl_lens c0 ++ ctrl_lens c1 in
  let D := drop (Z.to_nat (s_off inp)) (blk (mb m) (s_blk inp)) in
  is_byte c0 -> is_byte c1 -> inb (mb m) inp -> inb (mw m) out -> Forall is_byte (blk (mb m) (s_blk inp)) ->
  (size_at ls 8 <= s_len inp -> 8 <= s_len out -> Q (rmem m out (nums_at ls 8 D))) ->
  (s_len inp < size_at ls 4 \/ s_len out < 4 -> P m) ->
  (size_at ls 4 <= s_len inp -> 4 <= s_len out -> s_len inp < size_at ls 8 \/ s_len out < 8 -> P (rmem m out (nums_at ls 4 D))) ->
  outcome (Get8uint32Scalar inp out (c0 + 256 * c1)) m (fun _ => Q) P.
Proof.
  intros ls D H0 H1 Hi Ho Hb HQ HP1 HP2. unfold Get8uint32Scalar.
  destruct (u8_parts c0 c1 H0 H1) as [-> ->]. rewrite ControlByteToSize_lens by done.
  assert (Hi' := Hi). destruct Hi as (Hi1 & Hi2 & Hi3). assert (Ho' := Ho). destruct Ho as (Ho1 & Ho2 & Ho3).
  unfold ls in *. rewrite (size_at_lo c0 c1 4) in * by lia. rewrite (nums_at_lo c0 c1 4) in * by lia.
  change 8%nat with (4 + 4)%nat in *. rewrite (size_at_hi c0 c1 4) in *. rewrite (nums_at_hi c0 c1 4) in *.
  rewrite (sizek_4 c0), (sizek_4 c1), (numsk_4 c0), (numsk_4 c1) in *.
  pose proof (sum_ctrl_lens_range c0). pose proof (sum_ctrl_lens_range c1).
  apply oc_bind, oc_Get4uint32Scalar; [done|done|done|done| |intros; apply HP1; lia]. fold D. intros G1 G2.
  pose proof (nums4_length c0 D) as HN.
  apply oc_bind, oc_slice_from; [|lia]. intros _. apply oc_bind, oc_slice_from; [|lia]. intros _.
  apply oc_Get4uint32Scalar; cbn [s_blk s_off s_len s_cap]; change (mb (rmem m out ?r)) with (mb m); try done.
  - repeat split; cbn [s_blk s_off s_len s_cap]; lia.
  - apply rmem_inb; [done|lia|]. repeat split; cbn [s_blk s_off s_len s_cap]; lia.
  - intros G3 G4. rewrite rmem_rmem; cbn [s_blk s_off]; [|done|done|lia|rewrite !nums4_length; lia].
    replace (drop (Z.to_nat (s_off inp + _)) _) with (drop (sum_nat (ctrl_lens c0)) D); [apply HQ; lia|].
    unfold D. rewrite drop_drop. f_equal. lia.
  - intros. apply HP2; lia.
Qed.

(** decode.go:142-148 *)
Lemma oc_Get8uint32DeltaScalar inp out c0 c1 prev m (Q : mem -> Prop) P :
  let ls := ctrl_lens c0 ++ ctrl_lens c1 in
  let D := drop (Z.to_nat (s_off inp)) (blk (mb m) (s_blk inp)) in
  is_byte c0 -> is_byte c1 -> inb (mb m) inp -> inb (mw m) out -> Forall is_byte (blk (mb m) (s_blk inp)) ->
  (size_at ls 8 <= s_len inp -> 8 <= s_len out -> Q (rmem m out (running_sums prev (nums_at ls 8 D)))) ->
  (s_len out < 4 -> P m) ->
  (size_at ls 4 <= s_len inp -> 4 <= s_len out < 8 -> P (rmem m out (running_sums prev (nums_at ls 4 D)))) ->
  (forall k, (k < 8)%nat -> 4 <= s_len out -> ((k < 4)%nat \/ 8 <= s_len out) -> size_at ls k <= s_len inp < size_at ls (S k) ->
     P (rmem m out (running_sums prev (nums_at ls k D)))) ->
  outcome (Get8uint32DeltaScalar inp out (c0 + 256 * c1) prev) m (fun _ => Q) P.
Proof.
  intros ls D H0 H1 Hi Ho Hb HQ HP1 HP2 HP3. unfold Get8uint32DeltaScalar.
  destruct (u8_parts c0 c1 H0 H1) as [-> ->]. rewrite ControlByteToSize_lens by done.
  assert (Hi' := Hi). destruct Hi as (Hi1 & Hi2 & Hi3). assert (Ho' := Ho). destruct Ho as (Ho1 & Ho2 & Ho3).
  unfold ls in *. rewrite (size_at_lo c0 c1 4) in HP2 by lia. rewrite (nums_at_lo c0 c1 4) in HP2 by lia.
  rewrite (size_at_hi c0 c1 4 : size_at _ 8 = _) in HQ. rewrite (nums_at_hi c0 c1 4 D : nums_at _ 8 D = _) in HQ.
  rewrite (sizek_4 c0), (sizek_4 c1), (numsk_4 c1) in *. rewrite (numsk_4 c0) in HP2.
  pose proof (sum_ctrl_lens_range c0). pose proof (sum_ctrl_lens_range c1).
  apply oc_bind, oc_Get4uint32DeltaScalar; [done|done|done|done| |done|]; fold D.
  2:{ intros G4 k Hk Hs. rewrite <- (nums_at_lo c0 c1) by lia. apply HP3; [lia|lia|lia|]. by rewrite !size_at_lo by lia. }
  intros G1 G2. set (N0 := running_sums prev (nums4 c0 D)) in *.
  assert (HN : zlen N0 = 4) by (unfold N0, zlen; rewrite running_sums_length; apply nums4_length).
  assert (HR : forall k, running_sums prev (nums_at (ctrl_lens c0 ++ ctrl_lens c1) (4 + k) D) =
     N0 ++ running_sums (default prev (last N0)) (numsk c1 k (drop (sum_nat (ctrl_lens c0)) D))).
  { intros. rewrite nums_at_hi, running_sums_app. done. }
  apply oc_bind, oc_slice_from; [|lia]. intros _. apply oc_bind, oc_slice_from; [|lia]. intros _.
  apply oc_bind, oc_getW; [apply rmem_inb; [done|lia|done]| |lia]. intros _.
  destruct (rmem_blk m out N0 Ho' ltac:(lia)) as [-> _].
  rewrite at_splice by lia. replace (s_off out + 3 - s_off out) with (zlen N0 - 1) by lia.
  rewrite <- (last_at N0) with (x := prev) by (intros E; rewrite E in HN; done).
  set (p := default prev (last N0)) in *.
  set (o := Slice (s_blk out) _ _ _).
  assert (ED : drop (Z.to_nat (s_off inp + Z.of_nat (sum_nat (ctrl_lens c0)))) (blk (mb m) (s_blk inp)) = drop (sum_nat (ctrl_lens c0)) D).
  { unfold D. rewrite drop_drop. f_equal. lia. }
  assert (MM : forall k, (k <= 4)%nat -> Z.of_nat k + 4 <= s_len out ->
    rmem (rmem m out N0) o (running_sums p (numsk c1 k (drop (sum_nat (ctrl_lens c0)) D))) = rmem m out (running_sums prev (nums_at (ctrl_lens c0 ++ ctrl_lens c1) (4 + k) D))).
  { intros k Hk Hl. rewrite HR. apply rmem_rmem; cbn [s_blk s_off o]; [done|done|lia|]. rewrite zlen_running_sums, numsk_length by lia. lia. }
  apply oc_Get4uint32DeltaScalar; cbn [s_blk s_off s_len s_cap]; change (mb (rmem m out ?r)) with (mb m); try done; cbn [s_len o].
  - repeat split; cbn [s_blk s_off s_len s_cap]; lia.
  - apply rmem_inb; [done|lia|]. repeat split; unfold o; cbn [s_blk s_off s_len s_cap]; lia.
  - intros G3 G4. rewrite ED. rewrite <- (numsk_4 c1), MM by lia. rewrite HR, numsk_4. unfold p, N0. rewrite <- running_sums_app. apply HQ; lia.
  - intros. apply HP2; lia.
  - intros G4 k Hk Hs. rewrite ED, MM by lia. apply HP3; [lia|lia|lia|]. rewrite <- Nat.add_succ_r, !size_at_hi, !sizek_4 in *. lia.
Qed.
