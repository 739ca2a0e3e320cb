(** * Rules for WriteAllScalar, WriteAllDeltaScalar, WriteAllFast, WriteAllDeltaFast *)
From stdpp Require Import prelude gmap list.
From Coq Require Import ZArith Lia.
From Verif Require Import Spec SpecLemmas GoSem Tables Shared Asm Wp Encode TableProof EncodeProof EncodeProof2 SimdProof AsmProof DecodeProof DecodeProof2 Writer WriterProof.
Local Open Scope Z_scope.
Implicit Types (F : event -> Prop) (pn : Prop).

(** The largest slice the model's [int] arithmetic has to cope with: the address
    space is far smaller than 2^55 elements. *)
Definition max_elems : Z := 2 ^ 55.

(** Slice and memory a writer returns. *)
Definition wret (B : nat) (X : list Z) : slice := Slice B 0 (zlen (stream_of X)) (wN X).
Definition wmem (m : mem) (B : nat) (X : list Z) : mem :=
  Mem (<[B := stream_of X ++ replicate (Z.to_nat (wN X) - length (stream_of X)) 0]> (mb m)) (mw m).

Lemma pre_all X : pre X (zlen X) = X.
Proof. unfold pre, zlen. by rewrite Nat2Z.id, firstn_all. Qed.
Lemma wdp_end X : wdp X (zlen X) = zlen (stream_of X).
Proof.
  unfold wdp, stream_of. rewrite pre_all. rewrite zlen_app, zlen_enc_ctrls, wcl_eq. done.
Qed.
Lemma wst_end X : wst X (zlen X) = stream_of X ++ replicate (Z.to_nat (wN X) - length (stream_of X)) 0.
Proof.
  pose proof (wdp_end X) as He. pose proof (wN_nonneg X). pose proof (wdp_bounds X (zlen X) ltac:(pose proof (zlen_nonneg X); lia)) as Hb.
  unfold wst. unfold wdp in He, Hb. rewrite pre_all in *.
  assert (Hc : zlen (enc_ctrls X) = wcl X) by (rewrite zlen_enc_ctrls, wcl_eq; done).
  pose proof (zlen_nonneg (enc_data X)).
  rewrite <- Hc at 1. change (zlen (enc_ctrls X)) with (0 + zlen (enc_ctrls X)).
  rewrite splice_app_r; [|lia|rewrite zlen_replicate; unfold wN in *; lia].
  fold (stream_of X). unfold splice. change (Z.to_nat 0) with 0%nat. cbn [take app Nat.add].
  by rewrite drop_replicate.
Qed.
Lemma setb_alloc m B l l' : length l = length l' -> setb (Mem (<[B := l]> (mb m)) (mw m)) B l' = Mem (<[B := l']> (mb m)) (mw m).
Proof.
  intros. unfold setb. cbn [mb mw]. f_equal. unfold put. rewrite lookup_insert. by rewrite insert_insert.
Qed.
Lemma wp_makeB F pn B n m (Q : slice -> mem -> Prop) :
  0 <= n -> mb m !! B = None -> F (EAlB B) ->
  Q (Slice B 0 n n) (Mem (<[B := replicate (Z.to_nat n) 0]> (mb m)) (mw m)) ->
  wp F pn (makeB B n) m Q.
Proof. intros. unfold makeB. rewrite (proj2 (Z.ltb_ge n 0)) by lia. cbn. auto. Qed.

(** What a writer may assume. *)
Record wpre (F : event -> Prop) (m : mem) (B : nat) (inp : slice) (N : Z) : Prop := {
  wp_inb : inb (mw m) inp;
  wp_u32 : Forall is_u32 (blk (mw m) (s_blk inp));
  wp_small : s_len inp <= max_elems;
  wp_fresh : mb m !! B = None;
  wp_al : F (EAlB B);
  wp_wr : forall j, 0 <= j < N -> F (EWrB B j);
  wp_rd : forall j, s_off inp <= j < s_off inp + s_len inp -> F (ERdW (s_blk inp) j) }.

Lemma zlen_nums_of inp m : inb (mw m) inp -> zlen (nums_of inp m) = s_len inp.
Proof. intros (? & ? & ?). apply sub_zlen; lia. Qed.

Definition walloc (m : mem) (B : nat) (X : list Z) : mem := Mem (<[B := replicate (Z.to_nat (wN X)) 0]> (mb m)) (mw m).
Lemma wpre_wok F m B inp X : wpre F m B inp (wN X) -> zlen X = s_len inp -> wok F (walloc m B X) B inp (s_len inp) X.
Proof.
  intros [H1 H2 H3 H4 H5 H6 H7] Hl. split; try done. cbn. unfold blk. by rewrite lookup_insert.
Qed.
Lemma walloc_end m B X : setb (walloc m B X) B (wst X (zlen X)) = wmem m B X.
Proof.
  unfold walloc, wmem. rewrite setb_alloc.
  - by rewrite wst_end.
  - pose proof (wst_zlen X (zlen X) ltac:(pose proof (zlen_nonneg X); lia)) as Hz. rewrite replicate_length. unfold zlen in *. lia.
Qed.
Lemma walloc_start m B X : setb (walloc m B X) B (wst X 0) = walloc m B X.
Proof. rewrite wst_0. unfold walloc. by rewrite setb_alloc. Qed.

Lemma wp_wfinish F pn m B X (Q : slice -> mem -> Prop) : Q (wret B X) (wmem m B X) ->
  wp F pn (slice_to (Slice B 0 (wN X) (wN X)) (wdp X (zlen X))) (setb (walloc m B X) B (wst X (zlen X))) Q.
Proof.
  intros HQ. pose proof (zlen_nonneg X). pose proof (wdp_bounds X (zlen X) ltac:(lia)). pose proof (wN_nonneg X).
  unfold slice_to. apply wp_slice_range; cbn [s_blk s_off s_len s_cap]; [|unfold wN in *; lia]. intros _.
  rewrite walloc_end, wdp_end, !Z.sub_0_r. exact HQ.
Qed.

(** Slicing steps whose bounds are known to hold. *)
Ltac wsl :=
  apply wp_bind; (apply wp_slice_from || apply wp_slice_range); cbn [s_blk s_off s_len s_cap];
  [let H := fresh "HS" in intros H; try clear H | let H := fresh "HS" in intros H; exfalso; apply H; lia].
Ltac wsolve :=
  first [ done
        | lia
        | (unfold nslice; cbn [s_blk s_off s_len s_cap]; split; [done|]; lia)
        | (unfold cslice; cbn [s_blk s_off s_len s_cap]; split; [done|]; lia)
        | (unfold dslice; f_equal; lia) ].

Lemma wp_WriteAllScalar F pn B inp m (Q : slice -> mem -> Prop) :
  let X := nums_of inp m in
  wpre F m B inp (wN X) -> Q (wret B X) (wmem m B X) ->
  wp F pn (WriteAllScalar B inp) m Q.
Proof.
  intros X Hpre HQ. assert (Hpre' := Hpre). destruct Hpre as [Hin Hu Hsm Hfr Hal Hwr Hrd].
  assert (HX : zlen X = s_len inp) by (by apply zlen_nums_of).
  assert (Hin' := Hin). destruct Hin as (I1 & I2 & I3). unfold max_elems in Hsm.
  pose proof (wcl_bounds X) as Hc. pose proof (wN_nonneg X) as HN.
  unfold WriteAllScalar. cbv zeta. change MaxBytesPerNum with 4. change jump with 16. change jumpCtrl with 4.
  rewrite (iadd_small (s_len inp) 3) by lia. rewrite idiv_pos by lia.
  assert (Hcl : (s_len inp + 3) / 4 = wcl X) by (by rewrite wcl_eq, HX). rewrite !Hcl. rewrite (imul_small 4 (s_len inp)) by lia.
  assert (HNe : wN X = wcl X + 4 * s_len inp) by (unfold wN; lia).
  rewrite (iadd_small (wcl X)) by lia. rewrite <- HNe.
  apply wp_bind, wp_makeB; [lia|done|done|]. fold (walloc m B X).
  pose proof (wpre_wok F m B inp X Hpre' HX) as Hok. set (m1 := walloc m B X) in *.
  change (isub 16 1) with (2 ^ 4 - 1). change (iandnot (s_len inp) 3) with (iandnot (s_len inp) (2 ^ 2 - 1)). rewrite !iandnot_pow2 by lia.
  change (2 ^ 4) with 16. change (2 ^ 2) with 4.
  set (n := s_len inp) in *.
  set (l16 := n / 16 * 16). set (l4 := n / 4 * 4).
  assert (Hl16 : l16 mod 16 = 0 /\ 0 <= l16 <= n) by (subst l16; split; [apply Z.mod_mul; lia|Z.to_euclidean_division_equations; lia]).
  assert (Hl4 : l4 mod 4 = 0 /\ l16 <= l4 <= n /\ n - l4 < 4) by (subst l4 l16; split; [apply Z.mod_mul; lia|Z.to_euclidean_division_equations; lia]).
  assert (EX : X = nums_of inp m1) by done.
  assert (I3' : s_off inp + s_cap inp <= zlen (blk (mw m1) (s_blk inp))) by exact I3.
  apply wp_bind, (wp_while _ _ (fun '(dp, cp, k) m' =>
      0 <= k <= l16 /\ k mod 16 = 0 /\ cp = k / 4 /\ dp = wdp X k /\ m' = setb m1 B (wst X k))
    (fun '(_, _, k) => n - k)).
  - unfold m1; rewrite walloc_start. split; [lia|]. split; [done|]. split; [done|]. split; [|done].
    unfold wdp. change (pre X 0) with (@nil Z). cbn [enc_data]. rewrite zlen_nil. lia.
  - lia.
  - unfold wfuel. fold n. lia.
  - intros [[dp cp] k] m' (Hk & Hk16 & -> & -> & ->) Hcond _. apply Z.ltb_lt in Hcond.
    assert (k + 16 <= l16) by (Z.to_euclidean_division_equations; lia).
    pose proof (wdp_bounds X k ltac:(lia)). pose proof (wdp_bounds X (k + 16) ltac:(lia)).
    pose proof (wdp_step_bounds X k 4 ltac:(lia) ltac:(lia) ltac:(lia)).
    pose proof (wdp_step_bounds X (k + 4) 4 ltac:(lia) ltac:(lia) ltac:(lia)) as S8. replace (k + 4 + 4) with (k + 8) in S8 by lia.
    pose proof (wdp_step_bounds X (k + 8) 4 ltac:(lia) ltac:(lia) ltac:(lia)) as S12. replace (k + 8 + 4) with (k + 12) in S12 by lia.
    pose proof (wdp_step_bounds X (k + 12) 4 ltac:(lia) ltac:(lia) ltac:(lia)) as S16. replace (k + 12 + 4) with (k + 16) in S16 by lia.
    assert (Hk4 : (k + 4) / 4 = k / 4 + 1 /\ (k + 8) / 4 = k / 4 + 2 /\ (k + 12) / 4 = k / 4 + 3 /\ (k + 16) / 4 = k / 4 + 4) by (Z.to_euclidean_division_equations; lia).
    assert (Hm4 : k mod 4 = 0 /\ (k + 4) mod 4 = 0 /\ (k + 8) mod 4 = 0 /\ (k + 12) mod 4 = 0 /\ (k + 16) mod 16 = 0) by (Z.to_euclidean_division_equations; lia).
    assert (0 <= k / 4 /\ k / 4 + 4 <= wcl X) by (Z.to_euclidean_division_equations; lia).
    ints. do 3 wsl.
    apply (wp_w4 F pn m1 B inp n X k (k + 4)); try wsolve. intros E. rewrite E. wsl. wsl.
    apply (wp_w4 F pn m1 B inp n X (k + 4) (k + 8)); try wsolve. intros E2. rewrite E2. ints. wsl. wsl.
    apply (wp_w4 F pn m1 B inp n X (k + 8) (k + 12)); try wsolve. intros E3. rewrite E3. ints. wsl. wsl.
    apply (wp_w4 F pn m1 B inp n X (k + 12) (k + 16)); try wsolve. intros E4. rewrite E4. ints. cbn [wp].
    split; [|lia]. split; [lia|]. split; [lia|]. split; [lia|]. split; [lia|done].
  - intros [[dp cp] k] m' (Hk & Hk16 & -> & -> & ->) Hcond. apply Z.ltb_ge in Hcond.
    assert (k = l16) as -> by lia. clear Hk Hk16 Hcond.
    apply wp_bind, (wp_while _ _ (fun '(dp, cp, k) m' =>
      0 <= k <= l4 /\ k mod 4 = 0 /\ cp = k / 4 /\ dp = wdp X k /\ m' = setb m1 B (wst X k))
      (fun '(_, _, k) => n - k)).
    + split; [subst l16; Z.to_euclidean_division_equations; lia|]. split; [|done]. Z.to_euclidean_division_equations; lia.
    + lia.
    + unfold wfuel. fold n. subst l16. Z.to_euclidean_division_equations; lia.
    + intros [[dp cp] k] m' (Hk & Hk4 & -> & -> & ->) Hcond _. apply Z.ltb_lt in Hcond.
      assert (k + 4 <= l4) by (Z.to_euclidean_division_equations; lia).
      pose proof (wdp_bounds X k ltac:(lia)). pose proof (wdp_bounds X (k + 4) ltac:(lia)).
      assert (0 <= k / 4 /\ k / 4 + 1 <= wcl X /\ (k + 4) / 4 = k / 4 + 1 /\ (k + 4) mod 4 = 0) by (Z.to_euclidean_division_equations; lia).
      ints. wsl. wsl.
      apply (wp_w4 F pn m1 B inp n X k (k + 4)); try wsolve. intros E. rewrite E. ints. cbn [wp].
      split; [|lia]. split; [lia|]. split; [lia|]. split; [lia|]. split; [lia|done].
    + intros [[dp cp] k] m' (Hk & Hk4 & -> & -> & ->) Hcond. apply Z.ltb_ge in Hcond.
      assert (k = l4) as -> by lia. clear Hk Hk4 Hcond.
      apply wp_bind.
      assert (FIN : wp F pn (slice_to (Slice B 0 (wN X) (wN X)) (wdp X n)) (setb m1 B (wst X n)) Q).
      { rewrite <- HX. by apply wp_wfinish. }
      destruct (Z.eqb_spec l4 n) as [E|NE]; cbn [negb].
      * cbn [wp]. rewrite E. exact FIN.
      * pose proof (wdp_bounds X l4 ltac:(lia)). pose proof (wdp_bounds X n ltac:(lia)).
        pose proof (wdp_step_bounds X l4 (n - l4) ltac:(lia) ltac:(lia) ltac:(lia)) as Sn. replace (l4 + (n - l4)) with n in Sn by lia.
        assert (0 <= l4 / 4 /\ l4 / 4 + 1 <= wcl X) by (Z.to_euclidean_division_equations; lia).
        ints. wsl. wsl.
        apply (wp_wj F pn m1 B inp n X l4 n (n - l4)); try wsolve. intros E. rewrite E. ints. cbn [wp].
        replace (wdp X l4 + _) with (wdp X n) by lia. exact FIN.
Qed.

(** Reading the previous number from the input. *)
Lemma wp_getprev {A} F pn m B inp n prev X k k' nums i kk (rest : Z -> prog A) Q :
  wok F m B inp n X -> 0 <= k -> k' = k + i + 1 -> 0 <= i -> k' <= n -> nslice inp m k (i + 1) nums ->
  wp F pn (rest (pv prev (nums_of inp m) k')) (setb m B (wst X kk)) Q ->
  wp F pn (let! p := getW nums i in rest p) (setb m B (wst X kk)) Q.
Proof.
  intros [W1 W2 W3 W4 W5 W6 W7] Hk -> Hi Hn (N1 & N2 & N3 & N4) HQ.
  assert (W4' := W4). destruct W4 as (I1 & I2 & I3).
  apply wp_bind, wp_getW; change (mw (setb m ?b ?l)) with (mw m).
  - repeat split; try lia. rewrite N1. lia.
  - intros _. rewrite N1, N2. split; [apply W3; lia|].
    rewrite pv_at in HQ by (rewrite zlen_nums_of by done; lia).
    unfold nums_of in HQ. rewrite at_sub in HQ by lia.
    replace (s_off inp + (k + i + 1 - 1)) with (s_off inp + k + i) in HQ by lia. done.
  - lia.
Qed.

Lemma wp_WriteAllDeltaScalar F pn B inp prev m (Q : slice -> mem -> Prop) :
  let X := deltas prev (nums_of inp m) in
  wpre F m B inp (wN X) -> Q (wret B X) (wmem m B X) ->
  wp F pn (WriteAllDeltaScalar B inp prev) m Q.
Proof.
  intros X Hpre HQ. assert (Hpre' := Hpre). destruct Hpre as [Hin Hu Hsm Hfr Hal Hwr Hrd].
  assert (HX : zlen X = s_len inp) by (unfold X; rewrite zlen_deltas; by apply zlen_nums_of).
  assert (Hin' := Hin). destruct Hin as (I1 & I2 & I3). unfold max_elems in Hsm.
  pose proof (wcl_bounds X) as Hc. pose proof (wN_nonneg X) as HN.
  unfold WriteAllDeltaScalar. cbv zeta. change MaxBytesPerNum with 4. change jump with 16. change jumpCtrl with 4.
  rewrite (iadd_small (s_len inp) 3) by lia. rewrite idiv_pos by lia.
  assert (Hcl : (s_len inp + 3) / 4 = wcl X) by (by rewrite wcl_eq, HX). rewrite !Hcl. rewrite (imul_small 4 (s_len inp)) by lia.
  assert (HNe : wN X = wcl X + 4 * s_len inp) by (unfold wN; lia).
  rewrite (iadd_small (wcl X)) by lia. rewrite <- HNe.
  apply wp_bind, wp_makeB; [lia|done|done|]. fold (walloc m B X).
  pose proof (wpre_wok F m B inp X Hpre' HX) as Hok. set (m1 := walloc m B X) in *.
  change (isub 16 1) with (2 ^ 4 - 1). change (iandnot (s_len inp) 3) with (iandnot (s_len inp) (2 ^ 2 - 1)). rewrite !iandnot_pow2 by lia.
  change (2 ^ 4) with 16. change (2 ^ 2) with 4.
  set (n := s_len inp) in *.
  set (l16 := n / 16 * 16). set (l4 := n / 4 * 4).
  assert (Hl16 : l16 mod 16 = 0 /\ 0 <= l16 <= n) by (subst l16; split; [apply Z.mod_mul; lia|Z.to_euclidean_division_equations; lia]).
  assert (Hl4 : l4 mod 4 = 0 /\ l16 <= l4 <= n /\ n - l4 < 4) by (subst l4 l16; split; [apply Z.mod_mul; lia|Z.to_euclidean_division_equations; lia]).
  assert (EX : X = deltas prev (nums_of inp m1)) by done.
  assert (I3' : s_off inp + s_cap inp <= zlen (blk (mw m1) (s_blk inp))) by exact I3.
  apply wp_bind, (wp_while _ _ (fun '(dp, cp, k, p) m' =>
      0 <= k <= l16 /\ k mod 16 = 0 /\ cp = k / 4 /\ dp = wdp X k /\ p = pv prev (nums_of inp m1) k /\ m' = setb m1 B (wst X k))
    (fun '(_, _, k, _) => n - k)).
  - unfold m1; rewrite walloc_start. split; [lia|]. split; [done|]. split; [done|]. split; [|split; done].
    unfold wdp. change (pre X 0) with (@nil Z). cbn [enc_data]. rewrite zlen_nil. lia.
  - lia.
  - unfold wfuel. fold n. lia.
  - intros [[[dp cp] k] p] m' (Hk & Hk16 & -> & -> & -> & ->) Hcond _. apply Z.ltb_lt in Hcond.
    assert (k + 16 <= l16) by (Z.to_euclidean_division_equations; lia).
    pose proof (wdp_bounds X k ltac:(lia)). pose proof (wdp_bounds X (k + 16) ltac:(lia)).
    pose proof (wdp_step_bounds X k 4 ltac:(lia) ltac:(lia) ltac:(lia)).
    pose proof (wdp_step_bounds X (k + 4) 4 ltac:(lia) ltac:(lia) ltac:(lia)) as S8. replace (k + 4 + 4) with (k + 8) in S8 by lia.
    pose proof (wdp_step_bounds X (k + 8) 4 ltac:(lia) ltac:(lia) ltac:(lia)) as S12. replace (k + 8 + 4) with (k + 12) in S12 by lia.
    pose proof (wdp_step_bounds X (k + 12) 4 ltac:(lia) ltac:(lia) ltac:(lia)) as S16. replace (k + 12 + 4) with (k + 16) in S16 by lia.
    assert (Hk4 : (k + 4) / 4 = k / 4 + 1 /\ (k + 8) / 4 = k / 4 + 2 /\ (k + 12) / 4 = k / 4 + 3 /\ (k + 16) / 4 = k / 4 + 4) by (Z.to_euclidean_division_equations; lia).
    assert (Hm4 : k mod 4 = 0 /\ (k + 4) mod 4 = 0 /\ (k + 8) mod 4 = 0 /\ (k + 12) mod 4 = 0 /\ (k + 16) mod 16 = 0) by (Z.to_euclidean_division_equations; lia).
    assert (0 <= k / 4 /\ k / 4 + 4 <= wcl X) by (Z.to_euclidean_division_equations; lia).
    ints. do 3 wsl.
    apply (wp_w4d F pn m1 B inp n prev X k (k + 4)); try wsolve. intros E. rewrite E. wsl. wsl. apply (wp_getprev F pn m1 B inp n prev X k (k + 4)); try wsolve.
    apply (wp_w4d F pn m1 B inp n prev X (k + 4) (k + 8)); try wsolve. intros E2. rewrite E2. ints. wsl. wsl. apply (wp_getprev F pn m1 B inp n prev X k (k + 8)); try wsolve.
    apply (wp_w4d F pn m1 B inp n prev X (k + 8) (k + 12)); try wsolve. intros E3. rewrite E3. ints. wsl. wsl. apply (wp_getprev F pn m1 B inp n prev X k (k + 12)); try wsolve.
    apply (wp_w4d F pn m1 B inp n prev X (k + 12) (k + 16)); try wsolve. intros E4. rewrite E4. ints. apply (wp_getprev F pn m1 B inp n prev X k (k + 16)); try wsolve. cbn [wp].
    split; [|lia]. split; [lia|]. split; [lia|]. split; [lia|]. split; [lia|]. split; done.
  - intros [[[dp cp] k] p] m' (Hk & Hk16 & -> & -> & -> & ->) Hcond. apply Z.ltb_ge in Hcond.
    assert (k = l16) as -> by lia. clear Hk Hk16 Hcond.
    apply wp_bind, (wp_while _ _ (fun '(dp, cp, k, p) m' =>
      0 <= k <= l4 /\ k mod 4 = 0 /\ cp = k / 4 /\ dp = wdp X k /\ p = pv prev (nums_of inp m1) k /\ m' = setb m1 B (wst X k))
      (fun '(_, _, k, _) => n - k)).
    + split; [subst l16; Z.to_euclidean_division_equations; lia|]. split; [|done]. Z.to_euclidean_division_equations; lia.
    + lia.
    + unfold wfuel. fold n. subst l16. Z.to_euclidean_division_equations; lia.
    + intros [[[dp cp] k] p] m' (Hk & Hk4 & -> & -> & -> & ->) Hcond _. apply Z.ltb_lt in Hcond.
      assert (k + 4 <= l4) by (Z.to_euclidean_division_equations; lia).
      pose proof (wdp_bounds X k ltac:(lia)). pose proof (wdp_bounds X (k + 4) ltac:(lia)).
      assert (0 <= k / 4 /\ k / 4 + 1 <= wcl X /\ (k + 4) / 4 = k / 4 + 1 /\ (k + 4) mod 4 = 0) by (Z.to_euclidean_division_equations; lia).
      ints. wsl. wsl.
      apply (wp_w4d F pn m1 B inp n prev X k (k + 4)); try wsolve. intros E. rewrite E. ints. apply (wp_getprev F pn m1 B inp n prev X 0 (k + 4)); try wsolve. cbn [wp].
      split; [|lia]. split; [lia|]. split; [lia|]. split; [lia|]. split; [lia|]. split; done.
    + intros [[[dp cp] k] p] m' (Hk & Hk4 & -> & -> & -> & ->) Hcond. apply Z.ltb_ge in Hcond.
      assert (k = l4) as -> by lia. clear Hk Hk4 Hcond.
      apply wp_bind.
      assert (FIN : wp F pn (slice_to (Slice B 0 (wN X) (wN X)) (wdp X n)) (setb m1 B (wst X n)) Q).
      { rewrite <- HX. by apply wp_wfinish. }
      destruct (Z.eqb_spec l4 n) as [E|NE]; cbn [negb].
      * cbn [wp]. rewrite E. exact FIN.
      * pose proof (wdp_bounds X l4 ltac:(lia)). pose proof (wdp_bounds X n ltac:(lia)).
        pose proof (wdp_step_bounds X l4 (n - l4) ltac:(lia) ltac:(lia) ltac:(lia)) as Sn. replace (l4 + (n - l4)) with n in Sn by lia.
        assert (0 <= l4 / 4 /\ l4 / 4 + 1 <= wcl X) by (Z.to_euclidean_division_equations; lia).
        ints. wsl. wsl.
        apply (wp_wjd F pn m1 B inp n prev X l4 n (n - l4)); try wsolve. intros E. rewrite E. ints. cbn [wp].
        replace (wdp X l4 + _) with (wdp X n) by lia. exact FIN.
Qed.

Lemma wp_WriteAllFast F pn B inp m (Q : slice -> mem -> Prop) :
  let X := nums_of inp m in
  wpre F m B inp (wN X) -> Q (wret B X) (wmem m B X) ->
  wp F pn (WriteAllFast (AMD64 true true) B inp) m Q.
Proof.
  intros X Hpre HQ. assert (Hpre' := Hpre). destruct Hpre as [Hin Hu Hsm Hfr Hal Hwr Hrd].
  assert (HX : zlen X = s_len inp) by (by apply zlen_nums_of).
  assert (Hin' := Hin). destruct Hin as (I1 & I2 & I3). unfold max_elems in Hsm.
  pose proof (wcl_bounds X) as Hc. pose proof (wN_nonneg X) as HN.
  unfold WriteAllFast. cbv zeta. change MaxBytesPerNum with 4.
  rewrite (iadd_small (s_len inp) 3) by lia. rewrite idiv_pos by lia.
  assert (Hcl : (s_len inp + 3) / 4 = wcl X) by (by rewrite wcl_eq, HX). rewrite !Hcl. rewrite (imul_small 4 (s_len inp)) by lia.
  assert (HNe : wN X = wcl X + 4 * s_len inp) by (unfold wN; lia).
  rewrite (iadd_small (wcl X) (4 * s_len inp)) by lia. rewrite <- HNe.
  apply wp_bind, wp_makeB; [lia|done|done|]. fold (walloc m B X).
  pose proof (wpre_wok F m B inp X Hpre' HX) as Hok. set (m1 := walloc m B X) in *.
  rewrite (isub_small (wcl X) 3), (imul_small (wcl X - 3) 4) by lia.
  change (iandnot ((wcl X - 3) * 4) 31) with (iandnot ((wcl X - 3) * 4) (2 ^ 5 - 1)). rewrite !iandnot_pow2 by lia.
  change (2 ^ 5) with 32. rewrite (isub_small (wcl X) 2) by lia.
  set (n := s_len inp) in *.
  set (l32 := (wcl X - 3) * 4 / 32 * 32).
  assert (Hl32 : l32 mod 32 = 0 /\ l32 <= n - 9) by (subst l32; split; [apply Z.mod_mul; lia|Z.to_euclidean_division_equations; lia]).
  assert (EX : X = nums_of inp m1) by done.
  assert (I3' : s_off inp + s_cap inp <= zlen (blk (mw m1) (s_blk inp))) by exact I3.
  apply wp_bind, (wp_while _ _ (fun '(dp, cp, k) m' =>
      0 <= k <= n /\ k mod 32 = 0 /\ cp = k / 4 /\ dp = wdp X k /\ m' = setb m1 B (wst X k))
    (fun '(_, _, k) => n - k)).
  - unfold m1; rewrite walloc_start. split; [lia|]. split; [done|]. split; [done|]. split; [|done].
    unfold wdp. change (pre X 0) with (@nil Z). cbn [enc_data]. rewrite zlen_nil. lia.
  - lia.
  - unfold wfuel. fold n. lia.
  - intros [[dp cp] k] m' (Hk & Hk16 & -> & -> & ->) Hcond _. apply Z.ltb_lt in Hcond.
    assert (k + 32 <= l32) by (Z.to_euclidean_division_equations; lia).
    pose proof (wdp_bounds X k ltac:(lia)). pose proof (wdp_bounds X (k + 32) ltac:(lia)).
    pose proof (wdp_step_bounds X k 8 ltac:(lia) ltac:(lia) ltac:(lia)).
    pose proof (wdp_step_bounds X (k + 8) 8 ltac:(lia) ltac:(lia) ltac:(lia)) as S8. replace (k + 8 + 8) with (k + 16) in S8 by lia.
    pose proof (wdp_step_bounds X (k + 16) 8 ltac:(lia) ltac:(lia) ltac:(lia)) as S12. replace (k + 16 + 8) with (k + 24) in S12 by lia.
    pose proof (wdp_step_bounds X (k + 24) 8 ltac:(lia) ltac:(lia) ltac:(lia)) as S16. replace (k + 24 + 8) with (k + 32) in S16 by lia.
    assert (Hk4 : (k + 8) / 4 = k / 4 + 2 /\ (k + 16) / 4 = k / 4 + 4 /\ (k + 24) / 4 = k / 4 + 6 /\ (k + 32) / 4 = k / 4 + 8) by (Z.to_euclidean_division_equations; lia).
    assert (Hm4 : k mod 4 = 0 /\ (k + 8) mod 4 = 0 /\ (k + 16) mod 4 = 0 /\ (k + 24) mod 4 = 0 /\ (k + 32) mod 32 = 0) by (Z.to_euclidean_division_equations; lia).
    assert (0 <= k / 4 /\ k / 4 + 8 <= wcl X) by (Z.to_euclidean_division_equations; lia).
    ints. do 4 wsl.
    apply (wp_w8 F pn m1 B inp n X k (k + 8)); try wsolve. intros E. rewrite E. wsl. wsl.
    apply (wp_w8 F pn m1 B inp n X (k + 8) (k + 16)); try wsolve. intros E2. rewrite E2. ints. wsl. wsl.
    apply (wp_w8 F pn m1 B inp n X (k + 16) (k + 24)); try wsolve. intros E3. rewrite E3. ints. wsl. wsl.
    apply (wp_w8 F pn m1 B inp n X (k + 24) (k + 32)); try wsolve. intros E4. rewrite E4. ints. cbn [wp].
    split; [|lia]. split; [lia|]. split; [lia|]. split; [lia|]. split; [lia|done].
  - intros [[dp cp] k0] m' (Hk & Hk16 & -> & -> & ->) Hcond. clear Hcond.
    apply wp_bind, (wp_while _ _ (fun '(dp, cp, k) m' =>
      0 <= k <= n /\ k mod 4 = 0 /\ cp = k / 4 /\ dp = wdp X k /\ m' = setb m1 B (wst X k))
      (fun '(_, _, k) => n - k)).
    + split; [lia|]. split; [|done]. Z.to_euclidean_division_equations; lia.
    + lia.
    + unfold wfuel. fold n. lia.
    + clear k0 Hk Hk16. intros [[dp cp] k] m' (Hk & Hk4 & -> & -> & ->) Hcond _. apply Z.ltb_lt in Hcond.
      assert (k + 8 <= n) by (Z.to_euclidean_division_equations; lia).
      pose proof (wdp_bounds X k ltac:(lia)). pose proof (wdp_bounds X (k + 8) ltac:(lia)).
      assert (0 <= k / 4 /\ k / 4 + 2 <= wcl X /\ (k + 8) / 4 = k / 4 + 2 /\ (k + 8) mod 4 = 0) by (Z.to_euclidean_division_equations; lia).
      ints. wsl. wsl.
      apply (wp_w8 F pn m1 B inp n X k (k + 8)); try wsolve. intros E. rewrite E. ints. cbn [wp].
      split; [|lia]. split; [lia|]. split; [lia|]. split; [lia|]. split; [lia|done].
    + clear k0 Hk Hk16. intros [[dp cp] k0] m' (Hk & Hk4 & -> & -> & ->) Hcond. clear Hcond.
      apply wp_bind, (wp_while _ _ (fun '(dp, cp, k) m' =>
        0 <= k <= n /\ (k mod 4 = 0 \/ k = n) /\ cp = (k + 3) / 4 /\ dp = wdp X k /\ m' = setb m1 B (wst X k))
        (fun '(_, _, k) => n - k)).
      * split; [lia|]. split; [by left|]. split; [|done]. Z.to_euclidean_division_equations; lia.
      * lia.
      * unfold wfuel. fold n. lia.
      * clear k0 Hk Hk4. intros [[dp cp] k] m' (Hk & Hk4 & -> & -> & ->) Hcond _. apply Z.ltb_lt in Hcond.
        assert (Hkn : k < n) by (rewrite <- Hcl in Hcond; Z.to_euclidean_division_equations; lia).
        destruct Hk4 as [Hk4|]; [|lia].
        assert (Hcp : (k + 3) / 4 = k / 4) by (Z.to_euclidean_division_equations; lia). rewrite Hcp.
        rewrite (isub_small n k) by lia.
        replace (if 4 <? n - k then 4 else n - k) with (Z.min 4 (n - k)) by (destruct (Z.ltb_spec 4 (n - k)); lia).
        set (j := Z.min 4 (n - k)).
        assert (Hj : 1 <= j <= 4 /\ k + j <= n /\ (j = 4 \/ k + j = n)) by lia.
        pose proof (wdp_bounds X k ltac:(lia)). pose proof (wdp_bounds X (k + j) ltac:(lia)).
        pose proof (wdp_step_bounds X k j ltac:(lia) ltac:(lia) ltac:(lia)) as Sn.
        assert (Hd : 0 <= k / 4 /\ k / 4 + 1 <= wcl X /\ (k + j + 3) / 4 = k / 4 + 1 /\ ((k + j) mod 4 = 0 \/ k + j = n)) by (clearbody j; Z.to_euclidean_division_equations; lia).
        clearbody j.
        ints. wsl. wsl.
        apply (wp_wj F pn m1 B inp n X k (k + j) j); try wsolve. intros E. rewrite E. ints. cbn [wp].
        split; [|lia]. split; [lia|]. split; [lia|]. split; [lia|]. split; [lia|done].
      * clear k0 Hk Hk4. intros [[dp cp] k] m' (Hk & Hk4 & -> & -> & ->) Hcond. apply Z.ltb_ge in Hcond.
        assert (k = n) as -> by (rewrite <- Hcl in Hcond; Z.to_euclidean_division_equations; lia).
        rewrite <- HX. by apply wp_wfinish.
Qed.

Lemma wp_WriteAllDeltaFast F pn B inp prev m (Q : slice -> mem -> Prop) :
  let X := deltas prev (nums_of inp m) in
  is_u32 prev ->
  wpre F m B inp (wN X) -> Q (wret B X) (wmem m B X) ->
  wp F pn (WriteAllDeltaFast (AMD64 true true) B inp prev) m Q.
Proof.
  intros X Hpv Hpre HQ. assert (Hpre' := Hpre). destruct Hpre as [Hin Hu Hsm Hfr Hal Hwr Hrd].
  assert (HX : zlen X = s_len inp) by (unfold X; rewrite zlen_deltas; by apply zlen_nums_of).
  assert (Hin' := Hin). destruct Hin as (I1 & I2 & I3). unfold max_elems in Hsm.
  pose proof (wcl_bounds X) as Hc. pose proof (wN_nonneg X) as HN.
  unfold WriteAllDeltaFast. cbv zeta. change MaxBytesPerNum with 4.
  rewrite (iadd_small (s_len inp) 3) by lia. rewrite idiv_pos by lia.
  assert (Hcl : (s_len inp + 3) / 4 = wcl X) by (by rewrite wcl_eq, HX). rewrite !Hcl. rewrite (imul_small 4 (s_len inp)) by lia.
  assert (HNe : wN X = wcl X + 4 * s_len inp) by (unfold wN; lia).
  rewrite (iadd_small (wcl X) (4 * s_len inp)) by lia. rewrite <- HNe.
  apply wp_bind, wp_makeB; [lia|done|done|]. fold (walloc m B X).
  pose proof (wpre_wok F m B inp X Hpre' HX) as Hok. set (m1 := walloc m B X) in *.
  rewrite (isub_small (wcl X) 3), (imul_small (wcl X - 3) 4) by lia.
  change (iandnot ((wcl X - 3) * 4) 31) with (iandnot ((wcl X - 3) * 4) (2 ^ 5 - 1)). rewrite !iandnot_pow2 by lia.
  change (2 ^ 5) with 32. rewrite (isub_small (wcl X) 2) by lia.
  set (n := s_len inp) in *.
  set (l32 := (wcl X - 3) * 4 / 32 * 32).
  assert (Hl32 : l32 mod 32 = 0 /\ l32 <= n - 9) by (subst l32; split; [apply Z.mod_mul; lia|Z.to_euclidean_division_equations; lia]).
  assert (EX : X = deltas prev (nums_of inp m1)) by done.
  assert (I3' : s_off inp + s_cap inp <= zlen (blk (mw m1) (s_blk inp))) by exact I3.
  apply wp_bind, (wp_while _ _ (fun '(dp, cp, k, p) m' =>
      0 <= k <= n /\ k mod 32 = 0 /\ cp = k / 4 /\ dp = wdp X k /\ p = pv prev (nums_of inp m1) k /\ m' = setb m1 B (wst X k))
    (fun '(_, _, k, _) => n - k)).
  - unfold m1; rewrite walloc_start. split; [lia|]. split; [done|]. split; [done|]. split; [|split; done].
    unfold wdp. change (pre X 0) with (@nil Z). cbn [enc_data]. rewrite zlen_nil. lia.
  - lia.
  - unfold wfuel. fold n. lia.
  - intros [[[dp cp] k] p] m' (Hk & Hk16 & -> & -> & -> & ->) Hcond _. apply Z.ltb_lt in Hcond.
    assert (k + 32 <= l32) by (Z.to_euclidean_division_equations; lia).
    pose proof (wdp_bounds X k ltac:(lia)). pose proof (wdp_bounds X (k + 32) ltac:(lia)).
    pose proof (wdp_step_bounds X k 8 ltac:(lia) ltac:(lia) ltac:(lia)).
    pose proof (wdp_step_bounds X (k + 8) 8 ltac:(lia) ltac:(lia) ltac:(lia)) as S8. replace (k + 8 + 8) with (k + 16) in S8 by lia.
    pose proof (wdp_step_bounds X (k + 16) 8 ltac:(lia) ltac:(lia) ltac:(lia)) as S12. replace (k + 16 + 8) with (k + 24) in S12 by lia.
    pose proof (wdp_step_bounds X (k + 24) 8 ltac:(lia) ltac:(lia) ltac:(lia)) as S16. replace (k + 24 + 8) with (k + 32) in S16 by lia.
    assert (Hk4 : (k + 8) / 4 = k / 4 + 2 /\ (k + 16) / 4 = k / 4 + 4 /\ (k + 24) / 4 = k / 4 + 6 /\ (k + 32) / 4 = k / 4 + 8) by (Z.to_euclidean_division_equations; lia).
    assert (Hm4 : k mod 4 = 0 /\ (k + 8) mod 4 = 0 /\ (k + 16) mod 4 = 0 /\ (k + 24) mod 4 = 0 /\ (k + 32) mod 32 = 0) by (Z.to_euclidean_division_equations; lia).
    assert (0 <= k / 4 /\ k / 4 + 8 <= wcl X) by (Z.to_euclidean_division_equations; lia).
    ints. do 4 wsl.
    apply (wp_w8d F pn m1 B inp n prev X k (k + 8)); try wsolve. intros E. rewrite E. wsl. wsl. apply (wp_getprev F pn m1 B inp n prev X k (k + 8)); try wsolve.
    apply (wp_w8d F pn m1 B inp n prev X (k + 8) (k + 16)); try wsolve. intros E2. rewrite E2. ints. wsl. wsl. apply (wp_getprev F pn m1 B inp n prev X k (k + 16)); try wsolve.
    apply (wp_w8d F pn m1 B inp n prev X (k + 16) (k + 24)); try wsolve. intros E3. rewrite E3. ints. wsl. wsl. apply (wp_getprev F pn m1 B inp n prev X k (k + 24)); try wsolve.
    apply (wp_w8d F pn m1 B inp n prev X (k + 24) (k + 32)); try wsolve. intros E4. rewrite E4. ints. apply (wp_getprev F pn m1 B inp n prev X k (k + 32)); try wsolve. cbn [wp].
    split; [|lia]. split; [lia|]. split; [lia|]. split; [lia|]. split; [lia|]. split; done.
  - intros [[[dp cp] k0] p] m' (Hk & Hk16 & -> & -> & -> & ->) Hcond. clear Hcond.
    apply wp_bind, (wp_while _ _ (fun '(dp, cp, k, p) m' =>
      0 <= k <= n /\ k mod 4 = 0 /\ cp = k / 4 /\ dp = wdp X k /\ p = pv prev (nums_of inp m1) k /\ m' = setb m1 B (wst X k))
      (fun '(_, _, k, _) => n - k)).
    + split; [lia|]. split; [|done]. Z.to_euclidean_division_equations; lia.
    + lia.
    + unfold wfuel. fold n. lia.
    + clear k0 Hk Hk16. intros [[[dp cp] k] p] m' (Hk & Hk4 & -> & -> & -> & ->) Hcond _. apply Z.ltb_lt in Hcond.
      assert (k + 8 <= n) by (Z.to_euclidean_division_equations; lia).
      pose proof (wdp_bounds X k ltac:(lia)). pose proof (wdp_bounds X (k + 8) ltac:(lia)).
      assert (0 <= k / 4 /\ k / 4 + 2 <= wcl X /\ (k + 8) / 4 = k / 4 + 2 /\ (k + 8) mod 4 = 0) by (Z.to_euclidean_division_equations; lia).
      ints. wsl. wsl.
      apply (wp_w8d F pn m1 B inp n prev X k (k + 8)); try wsolve. intros E. rewrite E. ints. apply (wp_getprev F pn m1 B inp n prev X 0 (k + 8)); try wsolve. cbn [wp].
      split; [|lia]. split; [lia|]. split; [lia|]. split; [lia|]. split; [lia|]. split; done.
    + clear k0 Hk Hk16. intros [[[dp cp] k0] p] m' (Hk & Hk4 & -> & -> & -> & ->) Hcond. clear Hcond.
      apply wp_bind, (wp_while _ _ (fun '(dp, cp, k, p) m' =>
        0 <= k <= n /\ (k mod 4 = 0 \/ k = n) /\ cp = (k + 3) / 4 /\ dp = wdp X k /\ p = pv prev (nums_of inp m1) k /\ m' = setb m1 B (wst X k))
        (fun '(_, _, k, _) => n - k)).
      * split; [lia|]. split; [by left|]. split; [|done]. Z.to_euclidean_division_equations; lia.
      * lia.
      * unfold wfuel. fold n. lia.
      * clear k0 Hk Hk4. intros [[[dp cp] k] p] m' (Hk & Hk4 & -> & -> & -> & ->) Hcond _. apply Z.ltb_lt in Hcond.
        assert (Hkn : k < n) by (rewrite <- Hcl in Hcond; Z.to_euclidean_division_equations; lia).
        destruct Hk4 as [Hk4|]; [|lia].
        assert (Hcp : (k + 3) / 4 = k / 4) by (Z.to_euclidean_division_equations; lia). rewrite Hcp.
        rewrite (isub_small n k) by lia.
        replace (if 4 <? n - k then 4 else n - k) with (Z.min 4 (n - k)) by (destruct (Z.ltb_spec 4 (n - k)); lia).
        set (j := Z.min 4 (n - k)).
        assert (Hj : 1 <= j <= 4 /\ k + j <= n /\ (j = 4 \/ k + j = n)) by lia.
        pose proof (wdp_bounds X k ltac:(lia)). pose proof (wdp_bounds X (k + j) ltac:(lia)).
        pose proof (wdp_step_bounds X k j ltac:(lia) ltac:(lia) ltac:(lia)) as Sn.
        assert (Hd : 0 <= k / 4 /\ k / 4 + 1 <= wcl X /\ (k + j + 3) / 4 = k / 4 + 1 /\ ((k + j) mod 4 = 0 \/ k + j = n)) by (clearbody j; Z.to_euclidean_division_equations; lia).
        clearbody j.
        ints. wsl. wsl.
        apply (wp_wjd F pn m1 B inp n prev X k (k + j) j); try wsolve. intros E. rewrite E. ints. apply (wp_getprev F pn m1 B inp n prev X 0 (k + j)); try wsolve. cbn [wp].
        split; [|lia]. split; [lia|]. split; [lia|]. split; [lia|]. split; [lia|]. split; done.
      * clear k0 Hk Hk4. intros [[[dp cp] k] p] m' (Hk & Hk4 & -> & -> & -> & ->) Hcond. apply Z.ltb_ge in Hcond.
        assert (k = n) as -> by (rewrite <- Hcl in Hcond; Z.to_euclidean_division_equations; lia).
        rewrite <- HX. by apply wp_wfinish.
Qed.
