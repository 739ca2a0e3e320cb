(** * Rules for ReadAllScalar and ReadAllDeltaScalar *)
From stdpp Require Import prelude gmap list.
From Coq Require Import ZArith Lia.
From Verif Require Import Spec SpecLemmas GoSem Tables Shared Asm Wp Encode Decode TableProof EncodeProof EncodeProof2 SimdProof AsmProof DecodeProof DecodeProof2 WriterProof WriterProof2 Reader ReaderProof.
Local Open Scope Z_scope.
Implicit Types (F : event -> Prop) (pn : Prop).

(** Sizes of the output for which the scalar readers do not panic: the batches of
    16 are sliced as [out[decoded:decoded+16]], which Go checks against the
    capacity only. *)
Definition okout (n : Z) (out : slice) : Prop :=
  n <= s_len out \/ (n mod 16 = 0 /\ n <= s_cap out).

Lemma pre_ge R k : zlen R <= k -> pre R k = R.
Proof. intros. unfold pre, zlen in *. apply take_ge. lia. Qed.

(** Slicing and control reading steps. *)
Ltac rsl :=
  apply wp_bind; (apply wp_slice_from || apply wp_slice_range); cbn [s_blk s_off s_len s_cap];
  let H := fresh "HS" in intros H.
Ltac rsolve :=
  first [ done | lia
        | (unfold rdata; cbn [s_blk s_off s_len s_cap]; split; [done|]; lia)
        | (unfold rnums; cbn [s_blk s_off s_len s_cap]; split; [done|]; lia)
        | (cbn [s_blk s_off s_len s_cap]; lia) ].

Ltac rfail Hp := cbn [s_blk s_off s_len s_cap]; intros [?|?]; [apply Hp|]; lia.

Lemma wp_ReadAllScalar F pn n st out m S (Q : unit -> mem -> Prop) :
  rok F m st out n S -> n <= 2 ^ 62 -> s_len st <= 2 ^ 62 ->
  (rdp S n n <= s_len st -> okout n out -> Q tt (rmem m out (rD S n))) ->
  (s_len st < rdp S n n \/ ~ okout n out -> pn) ->
  wp F pn (ReadAllScalar n st out) m Q.
Proof.
  intros Hok Hn62 Hs62 HQ Hp. pose proof (r_n _ _ _ _ _ _ Hok) as Hn0. pose proof (rok_zlen _ _ _ _ _ _ Hok) as HS.
  assert (Hst := r_st _ _ _ _ _ _ Hok). assert (Hout := r_out _ _ _ _ _ _ Hok).
  destruct Hst as (I1 & I2 & I3). destruct Hout as (O1 & O2 & O3).
  pose proof (rcl_bounds n Hn0) as Hc.
  assert (HMON : forall k, 0 <= k <= n -> rdp S n k <= rdp S n n) by (intros; apply rdp_mono; lia).
  assert (HGE : forall k, rcl n <= rdp S n k) by (intros; apply rdp_ge).
  assert (Hp1 : s_len st < rdp S n n -> pn) by auto.
  assert (Hp2 : s_cap out < n -> pn) by (intros; apply Hp; right; unfold okout; lia).
  assert (Hp3 : s_len out < n -> n mod 16 <> 0 -> pn) by (intros; apply Hp; right; unfold okout; lia).
  unfold ReadAllScalar. cbv zeta. change jump with 16. change jumpCtrl with 4.
  rewrite (iadd_small n 3) by lia. rewrite idiv_pos by lia.
  assert (Hcl : (n + 3) / 4 = rcl n) by (by rewrite rcl_eq). rewrite !Hcl.
  change (isub 16 1) with (2 ^ 4 - 1). change (iandnot n 3) with (iandnot n (2 ^ 2 - 1)). rewrite !iandnot_pow2 by lia.
  change (2 ^ 4) with 16. change (2 ^ 2) with 4.
  set (l16 := n / 16 * 16). set (l4 := n / 4 * 4).
  assert (Hl16 : l16 mod 16 = 0 /\ 0 <= l16 <= n /\ (l16 < n -> n mod 16 <> 0) /\ (l16 = n -> n mod 16 = 0)) by (subst l16; split; [apply Z.mod_mul; lia|Z.to_euclidean_division_equations; lia]).
  assert (Hl4 : l4 mod 4 = 0 /\ l16 <= l4 <= n /\ n - l4 < 4) by (subst l4 l16; split; [apply Z.mod_mul; lia|Z.to_euclidean_division_equations; lia]).
  set (R := rD S n) in *.
  apply wp_bind, (wp_while _ _ (fun '(dp, cp, k) m' =>
      0 <= k <= l16 /\ k mod 16 = 0 /\ cp = k / 4 /\ dp = rdp S n k /\ (k = 0 \/ (rdp S n k <= s_len st /\ k <= s_cap out)) /\ m' = rmem m out (pre R k))
    (fun '(_, _, k) => s_cap out - k)).
  - split; [lia|]. split; [done|]. split; [done|]. split; [by rewrite rdp_0|]. split; [by left|].
    change (pre R 0) with (@nil Z). by rewrite rmem_nil.
  - lia.
  - unfold rfuel. lia.
  - intros [[dp cp] k] m' (Hk & Hk16 & -> & -> & Hkb & ->) Hcond _. apply Z.ltb_lt in Hcond.
    assert (k + 16 <= l16) by (Z.to_euclidean_division_equations; lia).
    assert (Hk4 : (k + 4) / 4 = k / 4 + 1 /\ (k + 8) / 4 = k / 4 + 2 /\ (k + 12) / 4 = k / 4 + 3 /\ (k + 16) / 4 = k / 4 + 4) by (Z.to_euclidean_division_equations; lia).
    assert (Hm4 : k mod 4 = 0 /\ (k + 4) mod 4 = 0 /\ (k + 8) mod 4 = 0 /\ (k + 12) mod 4 = 0 /\ (k + 16) mod 16 = 0) by (Z.to_euclidean_division_equations; lia).
    assert (0 <= k / 4 /\ k / 4 + 4 <= rcl n) by (Z.to_euclidean_division_equations; lia).
    pose proof (HMON k ltac:(lia)). pose proof (HMON (k + 4) ltac:(lia)). pose proof (HMON (k + 8) ltac:(lia)).
    pose proof (HMON (k + 12) ltac:(lia)). pose proof (HMON (k + 16) ltac:(lia)). pose proof (HGE k).
    ints. rsl; [|apply Hp1; lia].
    pose proof (rdp_diff S n k (k + 4) ltac:(lia) ltac:(lia) ltac:(lia)). pose proof (rdp_diff S n (k + 4) (k + 8) ltac:(lia) ltac:(lia) ltac:(lia)).
    pose proof (rdp_diff S n (k + 8) (k + 12) ltac:(lia) ltac:(lia) ltac:(lia)). pose proof (rdp_diff S n (k + 12) (k + 16) ltac:(lia) ltac:(lia) ltac:(lia)).
    rsl; [|lia]. rsl; [|apply Hp2; lia].
    replace (k / 4 + 4 - k / 4) with 4 by lia. replace (k + 16 - k) with 16 by lia.
    apply (wp_rctrl F pn m st out n S _ _ _ (k / 4)); try rsolve.
    apply (wp_r4 F pn m st out n S k (k + 4)); try rsolve; [|solve [rfail Hp1]]. intros G1 _ E1. rewrite E1.
    apply (wp_rctrl F pn m st out n S _ _ _ ((k + 4) / 4)); try rsolve.
    rsl; [|lia]. rsl; [|lia].
    apply (wp_r4 F pn m st out n S (k + 4) (k + 8)); try rsolve; [|solve [rfail Hp1]]. intros G2 _ E2. rewrite E2.
    apply (wp_rctrl F pn m st out n S _ _ _ ((k + 8) / 4)); try rsolve.
    ints. rsl; [|lia]. rsl; [|lia].
    apply (wp_r4 F pn m st out n S (k + 8) (k + 12)); try rsolve; [|solve [rfail Hp1]]. intros G3 _ E3. rewrite E3.
    apply (wp_rctrl F pn m st out n S _ _ _ ((k + 12) / 4)); try rsolve.
    ints. rsl; [|lia]. rsl; [|lia].
    apply (wp_r4 F pn m st out n S (k + 12) (k + 16)); try rsolve; [|solve [rfail Hp1]]. intros G4 _ E4. rewrite E4.
    ints. cbn [wp]. split; [|lia]. split; [lia|]. split; [lia|]. split; [lia|]. split; [lia|]. split; [right; lia|done].
  - intros [[dp cp] k] m' (Hk & Hk16 & -> & -> & Hkb & ->) Hcond. apply Z.ltb_ge in Hcond.
    assert (k = l16) as -> by lia. clear Hk Hk16 Hcond.
    apply wp_bind, (wp_while _ _ (fun '(dp, cp, k) m' =>
      l16 <= k <= l4 /\ k mod 4 = 0 /\ cp = k / 4 /\ dp = rdp S n k /\
      ((k = l16 /\ (k = 0 \/ (rdp S n k <= s_len st /\ k <= s_cap out))) \/ (rdp S n k <= s_len st /\ k <= s_len out)) /\ m' = rmem m out (pre R k))
      (fun '(_, _, k) => s_cap out - k)).
    + split; [lia|]. split; [Z.to_euclidean_division_equations; lia|]. split; [done|]. split; [done|]. split; [by left|done].
    + lia.
    + unfold rfuel. lia.
    + intros [[dp cp] k] m' (Hk & Hk4 & -> & -> & Hkb' & ->) Hcond _. apply Z.ltb_lt in Hcond.
      assert (k + 4 <= l4) by (clear -Hk4 Hl4 Hcond; Z.to_euclidean_division_equations; lia).
      assert (0 <= k / 4 /\ k / 4 + 1 <= rcl n /\ (k + 4) / 4 = k / 4 + 1 /\ (k + 4) mod 4 = 0) by (clear -Hl16 Hk Hk4 Hl4 Hcond Hc; Z.to_euclidean_division_equations; lia).
      pose proof (HMON k ltac:(lia)). pose proof (HMON (k + 4) ltac:(lia)). pose proof (HGE k).
      destruct (Z.lt_ge_cases (k / 4) (s_len st)) as [Hks|Hks].
      2:{ unfold getB. apply wp_bind, wp_bind, wp_check_idx; [lia|]. intros _. apply Hp1. lia. }
      apply (wp_rctrl F pn m st out n S _ _ _ (k / 4)); try rsolve.
      ints. rsl; [|apply Hp1; lia]. rsl; [|apply Hp3; lia].
      pose proof (rdp_diff S n k (k + 4) ltac:(lia) ltac:(lia) ltac:(lia)).
      apply (wp_r4 F pn m st out n S k (k + 4)); try rsolve.
      2:{ cbn [s_len]. intros [?|?]; [apply Hp1|apply Hp3]; lia. }
      cbn [s_len]. intros G1 G2 E. rewrite E. ints. cbn [wp].
      split; [|lia]. split; [lia|]. split; [lia|]. split; [lia|]. split; [lia|]. split; [right; lia|done].
    + intros [[dp cp] k] m' (Hk & Hk4 & -> & -> & Hkb' & ->) Hcond. apply Z.ltb_ge in Hcond.
      assert (k = l4) as -> by lia. clear Hk Hk4 Hcond.
      pose proof (HMON l4 ltac:(lia)). pose proof (HGE l4).
      destruct (Z.eqb_spec l4 n) as [E|NE]; cbn [negb].
      * cbn [wp]. rewrite E in *.
        assert (Hfit : rdp S n n <= s_len st).
        { destruct Hkb' as [[_ [->|?]]|?]; [|lia|lia]. rewrite rdp_0. change (rcl 0) with 0. lia. }
        pose proof (HGE n).
        rewrite pre_ge by (unfold R; rewrite rD_zlen; lia). apply HQ; [done|]. unfold okout.
        destruct Hkb' as [[? [?|?]]|?]; [right|right|left]; lia.
      * assert (0 <= l4 / 4 /\ l4 / 4 + 1 <= rcl n) by (clear -Hl16 Hl4 Hc NE; Z.to_euclidean_division_equations; lia).
        rsl; [|apply Hp1; lia]. rsl; [|apply Hp3; lia].
        pose proof (rdp_diff S n l4 n ltac:(lia) ltac:(lia) ltac:(lia)).
        apply (wp_rctrl F pn m st out n S _ _ _ (l4 / 4)); try rsolve.
        ints. apply (wp_rj F pn m st out n S l4 n (n - l4)); try rsolve.
        2:{ cbn [s_len]. intros [?|?]; [apply Hp1|apply Hp3]; lia. }
        cbn [s_len]. intros G1 G2. cbn [wp].
        rewrite pre_ge by (unfold R; rewrite rD_zlen; lia). apply HQ; [done|]. left. lia.
Qed.

Lemma wp_ReadAllDeltaScalar F pn n st out prev m S (Q : unit -> mem -> Prop) :
  rok F m st out n S -> (forall j, s_off out <= j < s_off out + n -> j < s_off out + s_cap out -> F (ERdW (s_blk out) j)) ->
  n <= 2 ^ 62 -> s_len st <= 2 ^ 62 ->
  (rdp S n n <= s_len st -> okout n out -> Q tt (rmem m out (running_sums prev (rD S n)))) ->
  (s_len st < rdp S n n \/ ~ okout n out -> pn) ->
  wp F pn (ReadAllDeltaScalar n st out prev) m Q.
Proof.
  intros Hok Hro Hn62 Hs62 HQ Hp. pose proof (r_n _ _ _ _ _ _ Hok) as Hn0. pose proof (rok_zlen _ _ _ _ _ _ Hok) as HS.
  assert (Hst := r_st _ _ _ _ _ _ Hok). assert (Hout := r_out _ _ _ _ _ _ Hok).
  destruct Hst as (I1 & I2 & I3). destruct Hout as (O1 & O2 & O3).
  pose proof (rcl_bounds n Hn0) as Hc.
  assert (HMON : forall k, 0 <= k <= n -> rdp S n k <= rdp S n n) by (intros; apply rdp_mono; lia).
  assert (HGE : forall k, rcl n <= rdp S n k) by (intros; apply rdp_ge).
  assert (Hp1 : s_len st < rdp S n n -> pn) by auto.
  assert (Hp2 : s_cap out < n -> pn) by (intros; apply Hp; right; unfold okout; lia).
  assert (Hp3 : s_len out < n -> n mod 16 <> 0 -> pn) by (intros; apply Hp; right; unfold okout; lia).
  unfold ReadAllDeltaScalar. cbv zeta. change jump with 16. change jumpCtrl with 4.
  rewrite (iadd_small n 3) by lia. rewrite idiv_pos by lia.
  assert (Hcl : (n + 3) / 4 = rcl n) by (by rewrite rcl_eq). rewrite !Hcl.
  change (isub 16 1) with (2 ^ 4 - 1). change (iandnot n 3) with (iandnot n (2 ^ 2 - 1)). rewrite !iandnot_pow2 by lia.
  change (2 ^ 4) with 16. change (2 ^ 2) with 4.
  set (l16 := n / 16 * 16). set (l4 := n / 4 * 4).
  assert (Hl16 : l16 mod 16 = 0 /\ 0 <= l16 <= n /\ (l16 < n -> n mod 16 <> 0) /\ (l16 = n -> n mod 16 = 0)) by (subst l16; split; [apply Z.mod_mul; lia|Z.to_euclidean_division_equations; lia]).
  assert (Hl4 : l4 mod 4 = 0 /\ l16 <= l4 <= n /\ n - l4 < 4) by (subst l4 l16; split; [apply Z.mod_mul; lia|Z.to_euclidean_division_equations; lia]).
  set (R := running_sums prev (rD S n)) in *.
  assert (HR : rcl n <= s_len st -> zlen R = n) by (intros; unfold R; rewrite zlen_running_sums; apply rD_zlen; lia).
  apply wp_bind, (wp_while _ _ (fun '(dp, cp, k, p) m' =>
      0 <= k <= l16 /\ k mod 16 = 0 /\ cp = k / 4 /\ dp = rdp S n k /\ (k = 0 \/ (rdp S n k <= s_len st /\ k <= s_cap out)) /\ p = pv prev R k /\ m' = rmem m out (pre R k))
    (fun '(_, _, k, _) => s_cap out - k)).
  - split; [lia|]. split; [done|]. split; [done|]. split; [by rewrite rdp_0|]. split; [by left|]. split; [done|].
    change (pre R 0) with (@nil Z). by rewrite rmem_nil.
  - lia.
  - unfold rfuel. lia.
  - intros [[[dp cp] k] p] m' (Hk & Hk16 & -> & -> & Hkb & -> & ->) Hcond _. apply Z.ltb_lt in Hcond.
    assert (k + 16 <= l16) by (Z.to_euclidean_division_equations; lia).
    assert (Hk4 : (k + 4) / 4 = k / 4 + 1 /\ (k + 8) / 4 = k / 4 + 2 /\ (k + 12) / 4 = k / 4 + 3 /\ (k + 16) / 4 = k / 4 + 4) by (Z.to_euclidean_division_equations; lia).
    assert (Hm4 : k mod 4 = 0 /\ (k + 4) mod 4 = 0 /\ (k + 8) mod 4 = 0 /\ (k + 12) mod 4 = 0 /\ (k + 16) mod 16 = 0) by (Z.to_euclidean_division_equations; lia).
    assert (0 <= k / 4 /\ k / 4 + 4 <= rcl n) by (Z.to_euclidean_division_equations; lia).
    pose proof (HMON k ltac:(lia)). pose proof (HMON (k + 4) ltac:(lia)). pose proof (HMON (k + 8) ltac:(lia)).
    pose proof (HMON (k + 12) ltac:(lia)). pose proof (HMON (k + 16) ltac:(lia)). pose proof (HGE k).
    ints. rsl; [|apply Hp1; lia].
    pose proof (rdp_diff S n k (k + 4) ltac:(lia) ltac:(lia) ltac:(lia)). pose proof (rdp_diff S n (k + 4) (k + 8) ltac:(lia) ltac:(lia) ltac:(lia)).
    pose proof (rdp_diff S n (k + 8) (k + 12) ltac:(lia) ltac:(lia) ltac:(lia)). pose proof (rdp_diff S n (k + 12) (k + 16) ltac:(lia) ltac:(lia) ltac:(lia)).
    rsl; [|lia]. rsl; [|apply Hp2; lia].
    replace (k / 4 + 4 - k / 4) with 4 by lia. replace (k + 16 - k) with 16 by lia.
    apply (wp_rctrl F pn m st out n S _ _ _ (k / 4)); try rsolve.
    apply (wp_r4d F pn m st out n S prev k (k + 4)); try rsolve; [|solve [rfail Hp1]]. intros G1 _ E1. rewrite E1.
    apply (wp_rctrl F pn m st out n S _ _ _ ((k + 4) / 4)); try rsolve.
    rsl; [|lia]. rsl; [|lia]. apply (wp_rlast F pn m st out n S prev R (k + 4) _ _ k); try rsolve. intros _.
    apply (wp_r4d F pn m st out n S prev (k + 4) (k + 8)); try rsolve; [|solve [rfail Hp1]]. intros G2 _ E2. rewrite E2.
    apply (wp_rctrl F pn m st out n S _ _ _ ((k + 8) / 4)); try rsolve.
    ints. rsl; [|lia]. rsl; [|lia]. apply (wp_rlast F pn m st out n S prev R (k + 8) _ _ k); try rsolve. intros _.
    apply (wp_r4d F pn m st out n S prev (k + 8) (k + 12)); try rsolve; [|solve [rfail Hp1]]. intros G3 _ E3. rewrite E3.
    apply (wp_rctrl F pn m st out n S _ _ _ ((k + 12) / 4)); try rsolve.
    ints. rsl; [|lia]. rsl; [|lia]. apply (wp_rlast F pn m st out n S prev R (k + 12) _ _ k); try rsolve. intros _.
    apply (wp_r4d F pn m st out n S prev (k + 12) (k + 16)); try rsolve; [|solve [rfail Hp1]]. intros G4 _ E4. rewrite E4. apply (wp_rlast F pn m st out n S prev R (k + 16) _ _ k); try rsolve. intros _.
    ints. cbn [wp]. split; [|lia]. split; [lia|]. split; [lia|]. split; [lia|]. split; [lia|]. split; [right; lia|]. split; done.
  - intros [[[dp cp] k] p] m' (Hk & Hk16 & -> & -> & Hkb & -> & ->) Hcond. apply Z.ltb_ge in Hcond.
    assert (k = l16) as -> by lia. clear Hk Hk16 Hcond.
    apply wp_bind, (wp_while _ _ (fun '(dp, cp, k, p) m' =>
      l16 <= k <= l4 /\ k mod 4 = 0 /\ cp = k / 4 /\ dp = rdp S n k /\
      ((k = l16 /\ (k = 0 \/ (rdp S n k <= s_len st /\ k <= s_cap out))) \/ (rdp S n k <= s_len st /\ k <= s_len out)) /\ p = pv prev R k /\ m' = rmem m out (pre R k))
      (fun '(_, _, k, _) => s_cap out - k)).
    + split; [lia|]. split; [Z.to_euclidean_division_equations; lia|]. split; [done|]. split; [done|]. split; [by left|]. split; done.
    + lia.
    + unfold rfuel. lia.
    + intros [[[dp cp] k] p] m' (Hk & Hk4 & -> & -> & Hkb' & -> & ->) Hcond _. apply Z.ltb_lt in Hcond.
      assert (k + 4 <= l4) by (clear -Hk4 Hl4 Hcond; Z.to_euclidean_division_equations; lia).
      assert (0 <= k / 4 /\ k / 4 + 1 <= rcl n /\ (k + 4) / 4 = k / 4 + 1 /\ (k + 4) mod 4 = 0) by (clear -Hl16 Hk Hk4 Hl4 Hcond Hc; Z.to_euclidean_division_equations; lia).
      pose proof (HMON k ltac:(lia)). pose proof (HMON (k + 4) ltac:(lia)). pose proof (HGE k).
      destruct (Z.lt_ge_cases (k / 4) (s_len st)) as [Hks|Hks].
      2:{ unfold getB. apply wp_bind, wp_bind, wp_check_idx; [lia|]. intros _. apply Hp1. lia. }
      apply (wp_rctrl F pn m st out n S _ _ _ (k / 4)); try rsolve.
      ints. rsl; [|apply Hp1; lia]. rsl; [|apply Hp3; lia].
      pose proof (rdp_diff S n k (k + 4) ltac:(lia) ltac:(lia) ltac:(lia)).
      apply (wp_r4d F pn m st out n S prev k (k + 4)); try rsolve.
      2:{ cbn [s_len]. intros [?|?]; [apply Hp1|apply Hp3]; lia. }
      cbn [s_len]. intros G1 G2 E. rewrite E. ints. apply (wp_rlast F pn m st out n S prev R (k + 4) _ _ 0); try rsolve. intros _. cbn [wp].
      split; [|lia]. split; [lia|]. split; [lia|]. split; [lia|]. split; [lia|]. split; [right; lia|]. split; done.
    + intros [[[dp cp] k] p] m' (Hk & Hk4 & -> & -> & Hkb' & -> & ->) Hcond. apply Z.ltb_ge in Hcond.
      assert (k = l4) as -> by lia. clear Hk Hk4 Hcond.
      pose proof (HMON l4 ltac:(lia)). pose proof (HGE l4).
      destruct (Z.eqb_spec l4 n) as [E|NE]; cbn [negb].
      * cbn [wp]. rewrite E in *.
        assert (Hfit : rdp S n n <= s_len st).
        { destruct Hkb' as [[_ [->|?]]|?]; [|lia|lia]. rewrite rdp_0. change (rcl 0) with 0. lia. }
        pose proof (HGE n).
        rewrite pre_ge by (rewrite HR; lia). apply HQ; [done|]. unfold okout.
        destruct Hkb' as [[? [?|?]]|?]; [right|right|left]; lia.
      * assert (0 <= l4 / 4 /\ l4 / 4 + 1 <= rcl n) by (clear -Hl16 Hl4 Hc NE; Z.to_euclidean_division_equations; lia).
        rsl; [|apply Hp1; lia]. rsl; [|apply Hp3; lia].
        pose proof (rdp_diff S n l4 n ltac:(lia) ltac:(lia) ltac:(lia)).
        apply (wp_rctrl F pn m st out n S _ _ _ (l4 / 4)); try rsolve.
        ints. apply (wp_rjd F pn m st out n S prev l4 n (n - l4)); try rsolve.
        2:{ cbn [s_len]. intros [?|?]; [apply Hp1|apply Hp3]; lia. }
        cbn [s_len]. intros G1 G2. cbn [wp].
        fold R. rewrite pre_ge by (rewrite HR; lia). apply HQ; [done|]. left. lia.
Qed.
