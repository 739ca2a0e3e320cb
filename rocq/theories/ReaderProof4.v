(** * The scalar readers for every count an [int] can hold; negative counts of the fast readers *)
From stdpp Require Import prelude gmap list.
From Coq Require Import ZArith Lia.
From Verif Require Import Spec SpecLemmas GoSem Tables Shared Asm Wp Encode Decode TableProof EncodeProof EncodeProof2 SimdProof AsmProof DecodeProof DecodeProof2 WriterProof WriterProof2 Reader ReaderProof ReaderProof2.
Local Open Scope Z_scope.
Implicit Types (F : event -> Prop) (pn : Prop).

(** Counts that do not fit any allocation: the position of the data is outside the
    stream (or, once [count + 3] wraps, negative). *)
Lemma ctrlLen_huge n L : 2 ^ 62 <= n < 2 ^ 63 -> L <= max_elems -> ~ (0 <= idiv (iadd n 3) 4 <= L).
Proof.
  intros Hn HL. unfold max_elems in HL. destruct (Z.lt_ge_cases (n + 3) (2 ^ 63)).
  - rewrite iadd_small by lia. rewrite idiv_pos by lia. pose proof (Z.div_le_mono (2 ^ 62) (n + 3) 4 ltac:(lia) ltac:(lia)) as H1.
    change (2 ^ 62 / 4) with (2 ^ 60) in H1. lia.
  - unfold iadd. assert (E : i64 (n + 3) = n + 3 - 2 ^ 64).
    { unfold i64. replace (n + 3 + 2 ^ 63) with (n + 3 - 2 ^ 63 + 1 * 2 ^ 64) by lia. rewrite Z.mod_add by lia.
      rewrite Z.mod_small by lia. lia. }
    rewrite E. unfold idiv.
    assert (E2 : Z.quot (n + 3 - 2 ^ 64) 4 = - ((2 ^ 64 - n - 3) / 4)).
    { replace (n + 3 - 2 ^ 64) with (- (2 ^ 64 - n - 3)) by lia. rewrite Z.quot_opp_l by lia. rewrite Z.quot_div_nonneg by lia. done. }
    assert (2 ^ 60 <= (2 ^ 64 - n - 3) / 4 <= 2 ^ 61).
    { split; [apply Z.div_le_lower_bound; lia|]. apply Z.div_le_upper_bound; lia. }
    rewrite E2, i64_small by lia. lia.
Qed.

Lemma wp_ReadAllScalar_huge F pn n st out m (Q : unit -> mem -> Prop) :
  2 ^ 62 <= n < 2 ^ 63 -> 0 <= s_len st <= max_elems -> 0 <= s_cap out -> pn -> wp F pn (ReadAllScalar n st out) m Q.
Proof.
  intros Hn Hs Ho Hp. unfold ReadAllScalar. cbv zeta. change (isub jump 1) with (2 ^ 4 - 1). rewrite (iandnot_pow2 n 4) by lia.
  pose proof (ctrlLen_huge n (s_len st) Hn ltac:(lia)) as Hcl.
  apply wp_bind. unfold rfuel. destruct (Z.to_nat (s_len st + s_cap out + 2)) as [|fuel] eqn:Ef; [lia|].
  cbn [while]. assert (0 < n / 2 ^ 4 * 2 ^ 4) by (assert (2 ^ 4 <= n / 2 ^ 4) by (apply Z.div_le_lower_bound; lia); lia).
  rewrite (proj2 (Z.ltb_lt 0 _)) by lia.
  apply wp_bind, wp_bind, wp_slice_from; [done|intros; exact Hp].
Qed.
Lemma wp_ReadAllDeltaScalar_huge F pn n st out prev m (Q : unit -> mem -> Prop) :
  2 ^ 62 <= n < 2 ^ 63 -> 0 <= s_len st <= max_elems -> 0 <= s_cap out -> pn -> wp F pn (ReadAllDeltaScalar n st out prev) m Q.
Proof.
  intros Hn Hs Ho Hp. unfold ReadAllDeltaScalar. cbv zeta. change (isub jump 1) with (2 ^ 4 - 1). rewrite (iandnot_pow2 n 4) by lia.
  pose proof (ctrlLen_huge n (s_len st) Hn ltac:(lia)) as Hcl.
  apply wp_bind. unfold rfuel. destruct (Z.to_nat (s_len st + s_cap out + 2)) as [|fuel] eqn:Ef; [lia|].
  cbn [while]. assert (0 < n / 2 ^ 4 * 2 ^ 4) by (assert (2 ^ 4 <= n / 2 ^ 4) by (apply Z.div_le_lower_bound; lia); lia).
  rewrite (proj2 (Z.ltb_lt 0 _)) by lia.
  apply wp_bind, wp_bind, wp_slice_from; [done|intros; exact Hp].
Qed.

(** Negative counts: a multiple of 4 does nothing, -1, -2, -3, -5 and -6 decode
    [count mod 4] numbers with the first byte of the stream both as control byte
    and as first data byte, all others panic. *)
Section negative.
Context (F : event -> Prop) (pn : Prop) (n : Z) (st out : slice) (m : mem) (Q : unit -> mem -> Prop).
Let S := sub (s_off st) (s_len st) (blk (mb m) (s_blk st)).
Let r := n mod 4.
Let c := at_ S 0.

Context (Hn : - 2 ^ 63 <= n < 0) (Hst : inb (mb m) st) (Hout : inb (mw m) out) (Hby : Forall is_byte (blk (mb m) (s_blk st)))
  (Hrd : forall j, s_off st <= j < s_off st + s_len st -> F (ERdB (s_blk st) j))
  (Hwr : forall j, s_off out <= j < s_off out + 3 -> j < s_off out + s_len out -> F (EWrW (s_blk out) j))
  (H0 : r = 0 -> Q tt m)
  (H7 : r <> 0 -> n <= -7 -> pn)
  (Hp : r <> 0 -> s_len st < 1 \/ s_len st < sizek c (Z.to_nat r) \/ s_len out < r -> pn).

Lemma neg_ctrlLen : idiv (iadd n 3) 4 = Z.quot (n + 3) 4 /\ (n <= -7 -> Z.quot (n + 3) 4 < 0) /\ (-7 < n -> Z.quot (n + 3) 4 = 0).
Proof.
  rewrite iadd_small by lia. unfold idiv. rewrite i64_small by (Z.to_euclidean_division_equations; lia).
  split; [done|]. Z.to_euclidean_division_equations; lia.
Qed.
Lemma neg_low : iandnot n (isub jump 1) < 0 /\ iandnot n 3 = n - r /\ isub n (iandnot n 3) = r.
Proof.
  change (isub jump 1) with (2 ^ 4 - 1). change (iandnot n 3) with (iandnot n (2 ^ 2 - 1)). rewrite !iandnot_pow2 by lia.
  change (2 ^ 4) with 16. change (2 ^ 2) with 4. subst r.
  pose proof (Z.mod_pos_bound n 4 ltac:(lia)) as Hr. pose proof (Z.div_mod n 4 ltac:(lia)).
  replace (n / 4 * 4) with (n - n mod 4) by lia. split; [Z.to_euclidean_division_equations; lia|]. split; [done|].
  replace (n - (n - n mod 4)) with (n mod 4) by lia. unfold isub. rewrite i64_small by lia. lia.
Qed.

Lemma wp_ReadAllScalar_neg :
  (r <> 0 -> -7 < n -> sizek c (Z.to_nat r) <= s_len st -> r <= s_len out -> Q tt (rmem m out (numsk c (Z.to_nat r) S))) ->
  wp F pn (ReadAllScalar n st out) m Q.
Proof.
  intros HQ. destruct neg_ctrlLen as (E1 & E2 & E3). destruct neg_low as (L1 & L2 & L3).
  pose proof (Z.mod_pos_bound n 4 ltac:(lia)) as Hr. fold r in Hr.
  unfold ReadAllScalar. cbv zeta. rewrite E1. destruct Hst as (I1 & I2 & I3). destruct Hout as (O1 & O2 & O3).
  assert (Hf : exists f, rfuel st out = Datatypes.S f) by (unfold rfuel; exists (Z.to_nat (s_len st + s_cap out + 1)); lia).
  destruct Hf as [f Hf]. rewrite Hf. cbn [while].
  rewrite (proj2 (Z.ltb_ge 0 (iandnot n (isub jump 1)))) by lia. cbn [bind]. rewrite L2.
  rewrite (proj2 (Z.ltb_ge 0 (n - r))) by lia. cbn [bind]. rewrite <- L2, L3, L2.
  destruct (Z.eqb_spec (n - r) n) as [E|NE]; cbn [negb].
  { cbn [wp]. apply H0. lia. }
  assert (Hr0 : r <> 0) by lia.
  apply wp_bind, wp_slice_from; [|intros Hx; destruct (Z.le_gt_cases n (-7)); [by apply H7|exfalso; apply Hx; rewrite E3; lia]].
  intros Hq. assert (Hn7 : -7 < n) by (destruct (Z.le_gt_cases n (-7)); [specialize (E2 ltac:(lia))|]; lia).
  rewrite (E3 Hn7), !Z.add_0_r, !Z.sub_0_r.
  apply wp_bind, wp_slice_from; [|intros Hx; lia]. intros _. rewrite !Z.add_0_r, !Z.sub_0_r.
  assert (HSz : zlen S = s_len st) by (unfold S; apply sub_zlen; lia).
  assert (Hcs : 0 < s_len st -> at_ (blk (mb m) (s_blk st)) (s_off st + 0) = c) by (intros; unfold c, S; by rewrite at_sub by lia).
  apply wp_bind, wp_getB; [done| |intros; apply Hp; lia]. intros Hpos. split; [apply Hrd; lia|]. rewrite Hcs by lia.
  assert (Hcl : clip r = r) by (unfold clip; lia).
  assert (Hcb : is_byte c) by (rewrite <- Hcs by lia; apply Forall_at; [done|lia]).
  apply wp_bind, wp_GetUint32Scalar; cbn [s_blk s_off s_len s_cap]; rewrite ?Hcl; try done.
  - intros. apply Hrd; lia.
  - intros. apply Hwr; lia.
  - intros G1 G2. cbn [wp].
    assert (EN : numsk c (Z.to_nat r) (drop (Z.to_nat (s_off st)) (blk (mb m) (s_blk st))) = numsk c (Z.to_nat r) S).
    { unfold S. rewrite <- (drop_0 (sub _ _ _)). change 0%nat with (Z.to_nat 0). rewrite numsk_sub by lia. by rewrite Z.add_0_r. }
    rewrite EN. by apply HQ.
  - intros. apply Hp; lia.
Qed.

Lemma wp_ReadAllDeltaScalar_neg prev :
  (r <> 0 -> -7 < n -> sizek c (Z.to_nat r) <= s_len st -> r <= s_len out -> Q tt (rmem m out (running_sums prev (numsk c (Z.to_nat r) S)))) ->
  wp F pn (ReadAllDeltaScalar n st out prev) m Q.
Proof.
  intros HQ. destruct neg_ctrlLen as (E1 & E2 & E3). destruct neg_low as (L1 & L2 & L3).
  pose proof (Z.mod_pos_bound n 4 ltac:(lia)) as Hr. fold r in Hr.
  unfold ReadAllDeltaScalar. cbv zeta. rewrite E1. destruct Hst as (I1 & I2 & I3). destruct Hout as (O1 & O2 & O3).
  assert (Hf : exists f, rfuel st out = Datatypes.S f) by (unfold rfuel; exists (Z.to_nat (s_len st + s_cap out + 1)); lia).
  destruct Hf as [f Hf]. rewrite Hf. cbn [while].
  rewrite (proj2 (Z.ltb_ge 0 (iandnot n (isub jump 1)))) by lia. cbn [bind]. rewrite L2.
  rewrite (proj2 (Z.ltb_ge 0 (n - r))) by lia. cbn [bind]. rewrite <- L2, L3, L2.
  destruct (Z.eqb_spec (n - r) n) as [E|NE]; cbn [negb].
  { cbn [wp]. apply H0. lia. }
  assert (Hr0 : r <> 0) by lia.
  apply wp_bind, wp_slice_from; [|intros Hx; destruct (Z.le_gt_cases n (-7)); [by apply H7|exfalso; apply Hx; rewrite E3; lia]].
  intros Hq. assert (Hn7 : -7 < n) by (destruct (Z.le_gt_cases n (-7)); [specialize (E2 ltac:(lia))|]; lia).
  rewrite (E3 Hn7), !Z.add_0_r, !Z.sub_0_r.
  apply wp_bind, wp_slice_from; [|intros Hx; lia]. intros _. rewrite !Z.add_0_r, !Z.sub_0_r.
  assert (HSz : zlen S = s_len st) by (unfold S; apply sub_zlen; lia).
  assert (Hcs : 0 < s_len st -> at_ (blk (mb m) (s_blk st)) (s_off st + 0) = c) by (intros; unfold c, S; by rewrite at_sub by lia).
  apply wp_bind, wp_getB; [done| |intros; apply Hp; lia]. intros Hpos. split; [apply Hrd; lia|]. rewrite Hcs by lia.
  assert (Hcl : clip r = r) by (unfold clip; lia).
  assert (Hcb : is_byte c) by (rewrite <- Hcs by lia; apply Forall_at; [done|lia]).
  apply wp_bind, wp_GetUint32DeltaScalar; cbn [s_blk s_off s_len s_cap]; rewrite ?Hcl; try done.
  - intros. apply Hrd; lia.
  - intros. apply Hwr; lia.
  - intros G1 G2. cbn [wp].
    assert (EN : numsk c (Z.to_nat r) (drop (Z.to_nat (s_off st)) (blk (mb m) (s_blk st))) = numsk c (Z.to_nat r) S).
    { unfold S. rewrite <- (drop_0 (sub _ _ _)). change 0%nat with (Z.to_nat 0). rewrite numsk_sub by lia. by rewrite Z.add_0_r. }
    rewrite EN. by apply HQ.
  - intros. apply Hp; lia.
Qed.
End negative.

(** The fast readers do nothing for a negative count, except close to the smallest
    [int], where [(ctrlLen - 3) * 4] wraps. *)
Lemma wp_ReadAllFast_neg F pn b1 b2 n st out m (Q : unit -> mem -> Prop) :
  - 2 ^ 63 + 6 <= n < 0 -> 0 <= s_len st -> 0 <= s_cap out -> Q tt m -> wp F pn (ReadAllFast (AMD64 b1 b2) n st out) m Q.
Proof.
  intros Hn Hs Ho HQ. unfold ReadAllFast. cbv zeta. rewrite iadd_small by lia. unfold idiv.
  assert (Hc : - 2 ^ 61 + 3 <= Z.quot (n + 3) 4 <= 0) by (Z.to_euclidean_division_equations; lia).
  rewrite i64_small by lia. set (cl := Z.quot (n + 3) 4) in *.
  rewrite (isub_small cl 3), (isub_small cl 4), (imul_small (cl - 3) 4) by lia.
  change (iandnot ((cl - 3) * 4) 31) with (iandnot ((cl - 3) * 4) (2 ^ 5 - 1)). rewrite !iandnot_pow2 by lia. change (2 ^ 5) with 32.
  assert (Hf : exists f, rfuel st out = Datatypes.S f) by (unfold rfuel; exists (Z.to_nat (s_len st + s_cap out + 1)); lia).
  destruct Hf as [f Hf]. rewrite Hf. cbn [while].
  rewrite (proj2 (Z.ltb_ge 0 _)) by (Z.to_euclidean_division_equations; lia). cbn [bind].
  rewrite (proj2 (Z.ltb_ge 0 (cl - 4))) by lia. cbn [bind].
  rewrite (proj2 (Z.ltb_ge 0 cl)) by lia. cbn. exact HQ.
Qed.
Lemma wp_ReadAllDeltaFast_neg F pn b1 b2 n st out prev m (Q : unit -> mem -> Prop) :
  - 2 ^ 63 + 6 <= n < 0 -> 0 <= s_len st -> 0 <= s_cap out -> Q tt m -> wp F pn (ReadAllDeltaFast (AMD64 b1 b2) n st out prev) m Q.
Proof.
  intros Hn Hs Ho HQ. unfold ReadAllDeltaFast. cbv zeta. rewrite iadd_small by lia. unfold idiv.
  assert (Hc : - 2 ^ 61 + 3 <= Z.quot (n + 3) 4 <= 0) by (Z.to_euclidean_division_equations; lia).
  rewrite i64_small by lia. set (cl := Z.quot (n + 3) 4) in *.
  rewrite (isub_small cl 3), (isub_small cl 4), (imul_small (cl - 3) 4) by lia.
  change (iandnot ((cl - 3) * 4) 31) with (iandnot ((cl - 3) * 4) (2 ^ 5 - 1)). rewrite !iandnot_pow2 by lia. change (2 ^ 5) with 32.
  assert (Hf : exists f, rfuel st out = Datatypes.S f) by (unfold rfuel; exists (Z.to_nat (s_len st + s_cap out + 1)); lia).
  destruct Hf as [f Hf]. rewrite Hf. cbn [while].
  rewrite (proj2 (Z.ltb_ge 0 _)) by (Z.to_euclidean_division_equations; lia). cbn [bind].
  rewrite (proj2 (Z.ltb_ge 0 (cl - 4))) by lia. cbn [bind].
  rewrite (proj2 (Z.ltb_ge 0 cl)) by lia. cbn. exact HQ.
Qed.
