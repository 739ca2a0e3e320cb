(** * What the remaining scalar decoders and the scalar readers leave in memory when they panic *)
From stdpp Require Import prelude gmap list.
From Coq Require Import ZArith Lia.
From Verif Require Import Spec SpecLemmas GoSem Tables Shared Asm Wp Encode EncodeProof EncodeProof2 TableProof SimdProof AsmProof Decode DecodeProof DecodeProof2 WriterProof WriterProof2 Reader ReaderProof ReaderProof2 Api ApiLemmas Outcome.
Local Open Scope Z_scope.
Implicit Types (P : mem -> Prop).

(** decode.go:82-101 *)
Lemma oc_GetUint32Scalar inp out c count m (Q : Z -> mem -> Prop) P :
  let n := clip count in
  let D := drop (Z.to_nat (s_off inp)) (blk (mb m) (s_blk inp)) in
  is_byte c -> inb (mb m) inp -> inb (mw m) out -> Forall is_byte (blk (mb m) (s_blk inp)) ->
  (sizek c (Z.to_nat n) <= s_len inp -> n <= s_len out -> Q (sizek c (Z.to_nat n)) (rmem m out (numsk c (Z.to_nat n) D))) ->
  (forall i, 0 <= i < n -> i <= s_len out -> sizek c (Z.to_nat i) <= s_len inp ->
     s_len inp < sizek c (Z.to_nat (i + 1)) \/ s_len out = i -> P (rmem m out (numsk c (Z.to_nat i) D))) ->
  outcome (GetUint32Scalar inp out c count) m Q P.
Proof.
  intros n D Hc Hi Ho Hb HQ Hp.
  assert (Hi' := Hi). destruct Hi as (Hi1 & Hi2 & Hi3). assert (Ho' := Ho). destruct Ho as (Ho1 & Ho2 & Ho3).
  unfold GetUint32Scalar.
  set (L := blk (mb m) (s_blk inp)) in *.
  destruct (Z.eqb_spec count 0) as [->|Hc0].
  { apply oc_ret. change (clip 0) with 0 in n. subst n. change (Z.to_nat 0) with 0%nat in *. change (numsk c 0 D) with (@nil Z) in HQ.
    rewrite rmem_nil in HQ. apply HQ; [|lia]. unfold sizek. cbn. lia. }
  set (cnt := if 4 <? count then 4 else count).
  assert (Hn : n = Z.max 0 cnt) by (subst n cnt; unfold clip; destruct (Z.ltb_spec 4 count); lia).
  assert (Hn4 : 0 <= n <= 4) by (subst n; unfold clip; lia).
  apply oc_bind.
  apply (oc_while (fun '(i, shift, total) m' =>
      0 <= i <= n /\ i <= s_len out /\ shift = 2 * i /\ total = sizek c (Z.to_nat i) /\ total <= s_len inp /\
      m' = rmem m out (numsk c (Z.to_nat i) D))
    (fun '(i, _, _) => n - i)).
  - change (Z.to_nat 0) with 0%nat. change (numsk c 0 D) with (@nil Z). rewrite rmem_nil.
    unfold sizek. cbn. repeat split; lia.
  - lia.
  - lia.
  - intros [[i shift] total] m' (Hin & Hil & -> & -> & Htot & ->) Hcond _.
    apply Z.ltb_lt in Hcond. assert (i < n) by lia.
    assert (size : u8 (Z.land (Z.shiftr c (2 * i)) 3 + 1) = Z.of_nat (nth (Z.to_nat i) (ctrl_lens c) 0%nat)).
    { rewrite <- size_lens by (done || lia). by rewrite Z2Nat.id by lia. }
    cbv zeta. rewrite !size.
    pose proof (nth_ctrl_lens c (Z.to_nat i) ltac:(lia)) as Hs.
    pose proof (sizek_S c (Z.to_nat i) ltac:(lia)) as HS. replace (S (Z.to_nat i)) with (Z.to_nat (i + 1)) in HS by lia.
    pose proof (sizek_nonneg c (Z.to_nat i)). pose proof (sizek_bounds c (Z.to_nat i) ltac:(lia)).
    apply oc_dec_step; [lia|lia|done|done| |intros; apply Hp; lia]. intros G.
    change (mb (rmem m out ?r)) with (mb m). fold L.
    assert (HR : numsk c (Z.to_nat (i + 1)) D = numsk c (Z.to_nat i) D ++ [le_val (sub (s_off inp + sizek c (Z.to_nat i)) (Z.of_nat (nth (Z.to_nat i) (ctrl_lens c) 0%nat)) L)]).
    { replace (Z.to_nat (i + 1)) with (S (Z.to_nat i)) by lia. apply numsk_S; lia. }
    assert (HRl : zlen (numsk c (Z.to_nat i) D) = i) by (rewrite numsk_length; lia).
    destruct (rmem_blk m out (numsk c (Z.to_nat i) D) Ho' ltac:(lia)) as [B1 B2].
    apply oc_bind, oc_setW; [apply rmem_inb; [done|lia|done]| |intros; apply Hp; lia].
    intros Hii. rewrite B1. unfold rmem at 1. rewrite setw_setw. ints. apply oc_ret. split; [|lia].
    split; [lia|]. split; [lia|]. split; [lia|]. split; [lia|]. split; [lia|].
    rewrite HR. rewrite <- HRl at 1. rewrite splice_app_l; [done|lia|].
    rewrite zlen_cons, zlen_nil; lia.
  - intros [[i shift] total] m' (Hin & Hil & -> & -> & Htot & ->) Hcond.
    apply Z.ltb_ge in Hcond. assert (i = n) as -> by lia. apply oc_ret.
    apply HQ; [done|lia].
Qed.

(** decode.go:109-130 *)
Lemma oc_GetUint32DeltaScalar inp out c count prev m (Q : Z -> mem -> Prop) P :
  let n := clip count in
  let R i := running_sums prev (numsk c (Z.to_nat i) (drop (Z.to_nat (s_off inp)) (blk (mb m) (s_blk inp)))) in
  is_byte c -> inb (mb m) inp -> inb (mw m) out -> Forall is_byte (blk (mb m) (s_blk inp)) ->
  (sizek c (Z.to_nat n) <= s_len inp -> n <= s_len out -> Q (sizek c (Z.to_nat n)) (rmem m out (R n))) ->
  (forall i, 0 <= i < n -> i <= s_len out -> sizek c (Z.to_nat i) <= s_len inp ->
     s_len inp < sizek c (Z.to_nat (i + 1)) \/ s_len out = i -> P (rmem m out (R i))) ->
  outcome (GetUint32DeltaScalar inp out c count prev) m Q P.
Proof.
  intros n R Hc Hi Ho Hb HQ Hp.
  assert (Hi' := Hi). destruct Hi as (Hi1 & Hi2 & Hi3). assert (Ho' := Ho). destruct Ho as (Ho1 & Ho2 & Ho3).
  unfold GetUint32DeltaScalar.
  set (L := blk (mb m) (s_blk inp)) in *. set (D := drop (Z.to_nat (s_off inp)) L) in *.
  destruct (Z.eqb_spec count 0) as [->|Hc0].
  { apply oc_ret. change (clip 0) with 0 in n. subst n. change (R 0) with (@nil Z) in HQ.
    rewrite rmem_nil in HQ. change (Z.to_nat 0) with 0%nat in *. apply HQ; [|lia]. unfold sizek. cbn. lia. }
  set (cnt := if 4 <? count then 4 else count).
  assert (Hn : n = Z.max 0 cnt) by (subst n cnt; unfold clip; destruct (Z.ltb_spec 4 count); lia).
  assert (Hn4 : 0 <= n <= 4) by (subst n; unfold clip; lia).
  apply oc_bind.
  apply (oc_while (fun '(i, shift, total, p) m' =>
      0 <= i <= n /\ i <= s_len out /\ shift = 2 * i /\ total = sizek c (Z.to_nat i) /\ total <= s_len inp /\
      p = default prev (last (R i)) /\ m' = rmem m out (R i))
    (fun '(i, _, _, _) => n - i)).
  - change (R 0) with (@nil Z). rewrite rmem_nil. change (Z.to_nat 0) with 0%nat.
    unfold sizek. cbn. repeat split; lia.
  - lia.
  - lia.
  - intros [[[i shift] total] p] m' (Hin & Hil & -> & -> & Htot & -> & ->) Hcond _.
    apply Z.ltb_lt in Hcond. assert (i < n) by lia.
    assert (size : u8 (Z.land (Z.shiftr c (2 * i)) 3 + 1) = Z.of_nat (nth (Z.to_nat i) (ctrl_lens c) 0%nat)).
    { rewrite <- size_lens by (done || lia). by rewrite Z2Nat.id by lia. }
    cbv zeta. rewrite !size.
    pose proof (nth_ctrl_lens c (Z.to_nat i) ltac:(lia)) as Hs.
    pose proof (sizek_S c (Z.to_nat i) ltac:(lia)) as HS. replace (S (Z.to_nat i)) with (Z.to_nat (i + 1)) in HS by lia.
    pose proof (sizek_nonneg c (Z.to_nat i)). pose proof (sizek_bounds c (Z.to_nat i) ltac:(lia)).
    apply oc_dec_step; [lia|lia|done|done| |intros; apply Hp; lia]. intros G.
    change (mb (rmem m out ?r)) with (mb m). fold L.
    set (v := le_val _).
    assert (HR : R (i + 1) = R i ++ [(default prev (last (R i)) + v) mod 2 ^ 32]).
    { unfold R. rewrite <- rs_snoc. f_equal. replace (Z.to_nat (i + 1)) with (S (Z.to_nat i)) by lia. apply numsk_S; lia. }
    assert (HRl : zlen (R i) = i) by (unfold R, zlen; rewrite running_sums_length; fold (zlen (numsk c (Z.to_nat i) D)); rewrite numsk_length; lia).
    destruct (rmem_blk m out (R i) Ho' ltac:(lia)) as [B1 B2].
    apply oc_bind, oc_setW; [apply rmem_inb; [done|lia|done]| |intros; apply Hp; lia].
    intros Hii. rewrite B1. unfold rmem at 1. rewrite setw_setw. ints. apply oc_ret. split; [|lia].
    split; [lia|]. split; [lia|]. split; [lia|]. split; [lia|]. split; [lia|].
    rewrite HR, last_snoc. rewrite (Z.add_comm v). split; [done|]. rewrite <- HRl at 1. rewrite splice_app_l; [done|lia|].
    rewrite zlen_cons, zlen_nil; lia.
  - intros [[[i shift] total] p] m' (Hin & Hil & -> & -> & Htot & -> & ->) Hcond.
    apply Z.ltb_ge in Hcond. assert (i = n) as -> by lia. apply oc_ret.
    apply HQ; [done|lia].
Qed.

(** ** Steps of the readers *)
Section steps.
Context {A : Type} (m : mem) (st out : slice) (n : Z) (S : list Z) (Hok : rok (fun _ => True) m st out n S).
Implicit Types (Q : A -> mem -> Prop).

Lemma oc_r4 k k' data nums (rest : prog A) Q P :
  let R := rD S n in
  0 <= k -> k mod 4 = 0 -> k' = k + 4 -> k' <= n -> rdp S n k <= s_len st ->
  rdata st S n k data -> rnums out k nums ->
  (rdp S n k' <= s_len st -> 4 <= s_len nums -> ControlByteToSize (at_ S (k / 4)) = rdp S n k' - rdp S n k ->
     outcome rest (rmem m out (pre R k')) Q P) ->
  (s_len st < rdp S n k' \/ s_len nums < 4 -> P (rmem m out (pre R k))) ->
  outcome (Get4uint32Scalar data nums (at_ S (k / 4)) ;;; rest) (rmem m out (pre R k)) Q P.
Proof.
  intros R Hk Hm -> Hn Hd (D1 & D2 & D3 & D4) (N1 & N2 & N3 & N4) HQ Hp.
  pose proof (rok_zlen _ _ _ _ _ _ Hok) as HS. pose proof (rdp_ge S n k) as Hge. pose proof (rcl_bounds n (r_n _ _ _ _ _ _ Hok)) as Hcl.
  assert (Hdiv : 0 <= k / 4 < rcl n) by (rewrite rcl_eq by lia; Z.to_euclidean_division_equations; lia).
  destruct (rok_ctrl _ _ _ _ _ _ (k / 4) Hok ltac:(lia)) as [_ Hc].
  pose proof (rdp_step S n k 4 ltac:(lia) Hm ltac:(lia)) as Hst. change (Z.to_nat 4) with 4%nat in Hst. rewrite sizek_4 in Hst.
  pose proof (rD_zlen S n ltac:(lia) ltac:(lia)) as HR. fold R in HR. pose proof Hok as Hok'.
  destruct Hok as [(I1 & I2 & I3) Hout Hby HSe _ _ _]. assert (Hout' := Hout). destruct Hout as (O1 & O2 & O3).
  assert (Hpk : zlen (pre R k) = k) by (apply zlen_pre; lia).
  set (c := at_ S (k / 4)) in *.
  apply oc_bind, oc_Get4uint32Scalar; change (mb (rmem m out ?r)) with (mb m).
  - done.
  - repeat split; try lia. rewrite D1. lia.
  - apply rmem_inb; [done|lia|]. repeat split; try lia. rewrite N1. lia.
  - by rewrite D1.
  - intros G1 G2. unfold rmem at 1. rewrite D1, D2, N1, N2.
    rewrite (rmem_step m out R k 4); [apply HQ; [lia|lia|]|done|lia|lia|lia|lia|].
    + rewrite ControlByteToSize_lens by done. lia.
    + unfold R. rewrite <- (rok_group _ _ _ _ _ _ k 4 Hok') by (done || lia || (change (Z.to_nat 4) with 4%nat; fold c; rewrite ?sizek_4; lia)).
      fold c. change (Z.to_nat 4) with 4%nat. by rewrite numsk_4.
  - intros. apply Hp. lia.
Qed.

Lemma oc_rj k k' j data nums (rest : Z -> prog A) Q P :
  let R := rD S n in
  0 <= k -> k mod 4 = 0 -> 0 <= j <= 4 -> k' = k + j -> k < n -> k' <= n -> rdp S n k <= s_len st ->
  rdata st S n k data -> rnums out k nums ->
  (rdp S n k' <= s_len st -> j <= s_len nums -> 
     outcome (rest (rdp S n k' - rdp S n k)) (rmem m out (pre R k')) Q P) ->
  (forall i, 0 <= i < j -> i <= s_len nums -> rdp S n (k + i) <= s_len st ->
     s_len st < rdp S n (k + i + 1) \/ s_len nums = i -> P (rmem m out (pre R (k + i)))) ->
  outcome (let! x := GetUint32Scalar data nums (at_ S (k / 4)) j in rest x) (rmem m out (pre R k)) Q P.
Proof.
  intros R Hk Hm Hj -> Hkn Hn Hd (D1 & D2 & D3 & D4) (N1 & N2 & N3 & N4) HQ Hp.
  pose proof (rok_zlen _ _ _ _ _ _ Hok) as HS. pose proof (rdp_ge S n k) as Hge. pose proof (rcl_bounds n (r_n _ _ _ _ _ _ Hok)) as Hcl.
  assert (Hdiv : 0 <= k / 4 < rcl n) by (rewrite rcl_eq by lia; Z.to_euclidean_division_equations; lia).
  destruct (rok_ctrl _ _ _ _ _ _ (k / 4) Hok ltac:(lia)) as [_ Hc].
  assert (Hst : forall i, 0 <= i <= j -> rdp S n (k + i) = rdp S n k + sizek (at_ S (k / 4)) (Z.to_nat i)) by (intros; apply rdp_step; lia).
  pose proof (rD_zlen S n ltac:(lia) ltac:(lia)) as HR. fold R in HR. pose proof Hok as Hok'.
  destruct Hok as [(I1 & I2 & I3) Hout Hby HSe _ _ _]. assert (Hout' := Hout). destruct Hout as (O1 & O2 & O3).
  assert (Hpk : zlen (pre R k) = k) by (apply zlen_pre; lia).
  assert (Hcj : clip j = j) by (unfold clip; lia).
  set (c := at_ S (k / 4)) in *.
  assert (MEM : forall i, 0 <= i <= j -> i <= s_len nums -> rdp S n (k + i) <= s_len st ->
    rmem (rmem m out (pre R k)) nums (numsk c (Z.to_nat i) (drop (Z.to_nat (s_off data)) (blk (mb m) (s_blk data)))) = rmem m out (pre R (k + i))).
  { intros i Hi1 Hi2 Hi3. rewrite D1, D2. unfold rmem at 1. rewrite N1, N2. apply rmem_step; [done|lia|lia|lia|lia|].
    unfold R. rewrite <- (rok_group _ _ _ _ _ _ k i Hok'); try (done || lia). fold c. rewrite Hst in Hi3 by lia. done. }
  apply oc_bind, oc_GetUint32Scalar; change (mb (rmem m out ?r)) with (mb m); rewrite ?Hcj.
  - done.
  - repeat split; try lia. rewrite D1. lia.
  - apply rmem_inb; [done|lia|]. repeat split; try lia. rewrite N1. lia.
  - by rewrite D1.
  - intros G1 G2. pose proof (Hst j ltac:(lia)). rewrite MEM by lia. replace (sizek c (Z.to_nat j)) with (rdp S n (k + j) - rdp S n k) by lia. apply HQ; lia.
  - intros i Hi1 Hi2 Hi3 Hi4. pose proof (Hst i ltac:(lia)). pose proof (Hst (i + 1) ltac:(lia)) as Hs1. rewrite Z.add_assoc in Hs1.
    rewrite MEM by lia. apply Hp; lia.
Qed.

Lemma oc_r4d prev k k' p data nums (rest : prog A) Q P :
  let R := running_sums prev (rD S n) in
  0 <= k -> k mod 4 = 0 -> k' = k + 4 -> k' <= n -> rdp S n k <= s_len st ->
  rdata st S n k data -> rnums out k nums -> p = pv prev R k ->
  (rdp S n k' <= s_len st -> 4 <= s_len nums -> ControlByteToSize (at_ S (k / 4)) = rdp S n k' - rdp S n k ->
     outcome rest (rmem m out (pre R k')) Q P) ->
  (s_len nums < 4 -> P (rmem m out (pre R k))) ->
  (4 <= s_len nums -> forall i, 0 <= i < 4 -> rdp S n (k + i) <= s_len st < rdp S n (k + i + 1) -> P (rmem m out (pre R (k + i)))) ->
  outcome (Get4uint32DeltaScalar data nums (at_ S (k / 4)) p ;;; rest) (rmem m out (pre R k)) Q P.
Proof.
  intros R Hk Hm -> Hn Hd (D1 & D2 & D3 & D4) (N1 & N2 & N3 & N4) -> HQ Hp1 Hp2.
  pose proof (rok_zlen _ _ _ _ _ _ Hok) as HS. pose proof (rdp_ge S n k) as Hge. pose proof (rcl_bounds n (r_n _ _ _ _ _ _ Hok)) as Hcl.
  assert (Hdiv : 0 <= k / 4 < rcl n) by (rewrite rcl_eq by lia; Z.to_euclidean_division_equations; lia).
  destruct (rok_ctrl _ _ _ _ _ _ (k / 4) Hok ltac:(lia)) as [_ Hc].
  assert (Hst : forall i, 0 <= i <= 4 -> rdp S n (k + i) = rdp S n k + sizek (at_ S (k / 4)) (Z.to_nat i)) by (intros; apply rdp_step; lia).
  assert (HR : zlen R = n) by (unfold R; rewrite zlen_running_sums; apply rD_zlen; lia). pose proof Hok as Hok'.
  destruct Hok as [(I1 & I2 & I3) Hout Hby HSe _ _ _]. assert (Hout' := Hout). destruct Hout as (O1 & O2 & O3).
  assert (Hpk : zlen (pre R k) = k) by (apply zlen_pre; lia).
  set (c := at_ S (k / 4)) in *. set (D := drop (Z.to_nat (s_off data)) (blk (mb m) (s_blk data))).
  assert (MEM : forall i, 0 <= i <= 4 -> i <= s_len nums -> rdp S n (k + i) <= s_len st ->
    rmem (rmem m out (pre R k)) nums (running_sums (pv prev R k) (numsk c (Z.to_nat i) D)) = rmem m out (pre R (k + i))).
  { intros i Hi1 Hi2 Hi3. unfold D. rewrite D1, D2. unfold rmem at 1. rewrite N1, N2. apply rmem_step; [done|lia|lia|lia|lia|].
    unfold R at 2. rewrite sub_running_sums by lia. fold R. f_equal.
    rewrite <- (rok_group _ _ _ _ _ _ k i Hok'); try (done || lia). fold c. rewrite Hst in Hi3 by lia. done. }
  pose proof (Hst 4 ltac:(lia)) as H4. change (Z.to_nat 4) with 4%nat in H4. rewrite sizek_4 in H4.
  apply oc_bind, oc_Get4uint32DeltaScalar; change (mb (rmem m out ?r)) with (mb m); fold D.
  - done.
  - repeat split; try lia. rewrite D1. lia.
  - apply rmem_inb; [done|lia|]. repeat split; try lia. rewrite N1. lia.
  - by rewrite D1.
  - intros G1 G2. rewrite <- numsk_4. change 4%nat with (Z.to_nat 4). rewrite MEM by lia.
    apply HQ; [lia|lia|]. rewrite ControlByteToSize_lens by done. lia.
  - done.
  - intros G k0 Hk0 Hs. pose proof (Hst (Z.of_nat k0) ltac:(lia)) as Hs0. pose proof (Hst (Z.of_nat k0 + 1) ltac:(lia)) as Hs1.
    rewrite Nat2Z.id in Hs0. replace (Z.to_nat (Z.of_nat k0 + 1)) with (Datatypes.S k0) in Hs1 by lia. rewrite Z.add_assoc in Hs1.
    rewrite <- (Nat2Z.id k0). rewrite MEM by lia. apply Hp2; lia.
Qed.

Lemma oc_rjd prev k k' j p data nums (rest : Z -> prog A) Q P :
  let R := running_sums prev (rD S n) in
  0 <= k -> k mod 4 = 0 -> 0 <= j <= 4 -> k' = k + j -> k < n -> k' <= n -> rdp S n k <= s_len st ->
  rdata st S n k data -> rnums out k nums -> p = pv prev R k ->
  (rdp S n k' <= s_len st -> j <= s_len nums -> 
     outcome (rest (rdp S n k' - rdp S n k)) (rmem m out (pre R k')) Q P) ->
  (forall i, 0 <= i < j -> i <= s_len nums -> rdp S n (k + i) <= s_len st ->
     s_len st < rdp S n (k + i + 1) \/ s_len nums = i -> P (rmem m out (pre R (k + i)))) ->
  outcome (let! x := GetUint32DeltaScalar data nums (at_ S (k / 4)) j p in rest x) (rmem m out (pre R k)) Q P.
Proof.
  intros R Hk Hm Hj -> Hkn Hn Hd (D1 & D2 & D3 & D4) (N1 & N2 & N3 & N4) -> HQ Hp.
  pose proof (rok_zlen _ _ _ _ _ _ Hok) as HS. pose proof (rdp_ge S n k) as Hge. pose proof (rcl_bounds n (r_n _ _ _ _ _ _ Hok)) as Hcl.
  assert (Hdiv : 0 <= k / 4 < rcl n) by (rewrite rcl_eq by lia; Z.to_euclidean_division_equations; lia).
  destruct (rok_ctrl _ _ _ _ _ _ (k / 4) Hok ltac:(lia)) as [_ Hc].
  assert (Hst : forall i, 0 <= i <= j -> rdp S n (k + i) = rdp S n k + sizek (at_ S (k / 4)) (Z.to_nat i)) by (intros; apply rdp_step; lia).
  assert (HR : zlen R = n) by (unfold R; rewrite zlen_running_sums; apply rD_zlen; lia). pose proof Hok as Hok'.
  destruct Hok as [(I1 & I2 & I3) Hout Hby HSe _ _ _]. assert (Hout' := Hout). destruct Hout as (O1 & O2 & O3).
  assert (Hpk : zlen (pre R k) = k) by (apply zlen_pre; lia).
  assert (Hcj : clip j = j) by (unfold clip; lia).
  set (c := at_ S (k / 4)) in *. set (D := drop (Z.to_nat (s_off data)) (blk (mb m) (s_blk data))).
  assert (MEM : forall i, 0 <= i <= j -> i <= s_len nums -> rdp S n (k + i) <= s_len st ->
    rmem (rmem m out (pre R k)) nums (running_sums (pv prev R k) (numsk c (Z.to_nat i) D)) = rmem m out (pre R (k + i))).
  { intros i Hi1 Hi2 Hi3. unfold D. rewrite D1, D2. unfold rmem at 1. rewrite N1, N2. apply rmem_step; [done|lia|lia|lia|lia|].
    unfold R at 2. rewrite sub_running_sums by lia. fold R. f_equal.
    rewrite <- (rok_group _ _ _ _ _ _ k i Hok'); try (done || lia). fold c. rewrite Hst in Hi3 by lia. done. }
  apply oc_bind, oc_GetUint32DeltaScalar; change (mb (rmem m out ?r)) with (mb m); rewrite ?Hcj; fold D.
  - done.
  - repeat split; try lia. rewrite D1. lia.
  - apply rmem_inb; [done|lia|]. repeat split; try lia. rewrite N1. lia.
  - by rewrite D1.
  - intros G1 G2. pose proof (Hst j ltac:(lia)). rewrite MEM by lia. replace (sizek c (Z.to_nat j)) with (rdp S n (k + j) - rdp S n k) by lia. apply HQ; lia.
  - intros i Hi1 Hi2 Hi3 Hi4. pose proof (Hst i ltac:(lia)). pose proof (Hst (i + 1) ltac:(lia)) as Hs1. rewrite Z.add_assoc in Hs1.
    rewrite MEM by lia. apply Hp; lia.
Qed.

Lemma oc_rctrl R ctrls i q (rest : Z -> prog A) Q P :
  s_blk ctrls = s_blk st -> s_off ctrls + i = s_off st + q -> 0 <= q < rcl n -> q < s_len st ->
  0 <= s_off ctrls -> s_len ctrls <= s_cap ctrls -> 
  s_off ctrls + s_cap ctrls <= s_off st + s_cap st -> 0 <= i < s_len ctrls ->
  outcome (rest (at_ S q)) (rmem m out R) Q P ->
  outcome (let! c := getB ctrls i in rest c) (rmem m out R) Q P.
Proof.
  intros C1 C2 Hq Hqs C3 C4 C5 Hi HQ.
  destruct (rok_ctrl _ _ _ _ _ _ q Hok ltac:(lia)) as [Hc _].
  destruct Hok as [(I1 & I2 & I3) Hout Hby HSe _ _ _].
  apply oc_bind, oc_getB; change (mb (rmem m out ?r)) with (mb m).
  - repeat split; try lia. rewrite C1. lia.
  - intros _. rewrite C1, C2. by rewrite Hc.
  - lia.
Qed.
Lemma oc_rlast prev R k' nums i q (rest : Z -> prog A) Q P :
  zlen R = n -> rnums out q nums -> 0 <= q -> 0 <= i -> k' = q + i + 1 -> k' <= n -> i < s_len nums ->
  outcome (rest (pv prev R k')) (rmem m out (pre R k')) Q P ->
  outcome (let! x := getW nums i in rest x) (rmem m out (pre R k')) Q P.
Proof.
  intros HR (N1 & N2 & N3 & N4) Hq Hi -> Hn Hil HQ.
  destruct Hok as [(I1 & I2 & I3) Hout Hby HSe _ _ _]. assert (Hout' := Hout). destruct Hout as (O1 & O2 & O3).
  assert (Hpk : zlen (pre R (q + i + 1)) = q + i + 1) by (apply zlen_pre; lia).
  destruct (rmem_blk m out (pre R (q + i + 1)) Hout' ltac:(lia)) as [E1 E2].
  apply oc_bind, oc_getW.
  - apply rmem_inb; [done|lia|]. repeat split; try lia. rewrite N1. lia.
  - intros _. rewrite N1, N2. rewrite E1. rewrite at_splice by lia.
    unfold pv in HQ. rewrite last_at in HQ by (intros E; rewrite E in Hpk; unfold zlen in Hpk; cbn in Hpk; lia).
    rewrite Hpk in HQ. replace (s_off out + q + i - s_off out) with (q + i + 1 - 1) by lia. apply HQ.
  - lia.
Qed.
End steps.

(** ** Where the scalar readers stop *)
Definition l16 (n : Z) : Z := n / 16 * 16.
Definition l4 (n : Z) : Z := n / 4 * 4.
(** How many numbers there is room for: the batches of 16 need capacity, the groups
    of four and the rest need length. *)
Definition short (n : Z) (out : slice) : Z :=
  if s_cap out <? l16 n then s_cap out / 16 * 16
  else if s_len out <? l4 n then Z.max (l16 n) (s_len out / 4 * 4) else s_len out.
(** After [q] numbers, with the bytes of these there and room for them. *)
Definition at_q (S : list Z) (n : Z) (st out : slice) (q : Z) : Prop :=
  0 <= q < n /\ rdp S n q <= s_len st /\ q <= short n out.

Lemma l16_l4 n : 0 <= n -> 0 <= l16 n <= l4 n.
Proof. intros. unfold l16, l4. Z.to_euclidean_division_equations; lia. Qed.
Lemma short_batch n out k q : 0 <= n -> 0 <= s_len out <= s_cap out -> k mod 16 = 0 -> 0 <= k -> k <= l16 n -> k <= s_cap out -> q <= k -> q <= short n out.
Proof.
  intros Hn Ho H1 H2 H3 H4 H5. pose proof (l16_l4 n Hn). unfold short. destruct (Z.ltb_spec (s_cap out) (l16 n)).
  - clear -H1 H2 H4 H5. Z.to_euclidean_division_equations; lia.
  - destruct (Z.ltb_spec (s_len out) (l4 n)); lia.
Qed.
Lemma short_group n out k q : 0 <= n -> 0 <= s_len out <= s_cap out -> k mod 4 = 0 -> 0 <= k -> l16 n <= s_cap out -> k <= s_len out -> q <= k -> q <= short n out.
Proof.
  intros Hn Ho H1 H2 H3 H4 H5. unfold short. destruct (Z.ltb_spec (s_cap out) (l16 n)); [lia|].
  destruct (Z.ltb_spec (s_len out) (l4 n)); [|lia]. clear -H1 H2 H4 H5. assert (k <= s_len out / 4 * 4) by (Z.to_euclidean_division_equations; lia). lia.
Qed.
Lemma short_tail n out q : 0 <= n -> 0 <= s_len out <= s_cap out -> l16 n <= s_cap out -> l4 n <= s_len out -> q <= s_len out -> q <= short n out.
Proof.
  intros Hn Ho H1 H2 H3. unfold short. destruct (Z.ltb_spec (s_cap out) (l16 n)); [lia|].
  destruct (Z.ltb_spec (s_len out) (l4 n)); [|lia]. lia.
Qed.
(** No room for what comes next. *)
Definition out_stop (n : Z) (out : slice) (q : Z) : Prop :=
  (q mod 16 = 0 /\ q < l16 n /\ s_cap out < q + 16) \/
  (l16 n <= q /\ q mod 4 = 0 /\ q + 4 <= n /\ s_len out < q + 4) \/
  (l4 n <= q /\ s_len out <= q).
Definition data_stop (S : list Z) (n : Z) (st : slice) (q : Z) : Prop :=
  (q mod 4 = 0 /\ q + 4 <= n /\ s_len st < rdp S n (q + 4)) \/ (l4 n <= q /\ s_len st < rdp S n (q + 1)).
Definition data_stop_delta (S : list Z) (n : Z) (st : slice) (q : Z) : Prop := s_len st < rdp S n (q + 1).

Ltac osl :=
  apply oc_bind; (apply oc_slice_from || apply oc_slice_range); cbn [s_blk s_off s_len s_cap];
  let H := fresh "HS" in intros H.

(** Nothing is stored when the control bytes are not all there. *)
Ltac hp0 Hp0 k :=
  let E := fresh in assert (E : k = 0) by lia; rewrite E in *;
  match goal with |- ?P (rmem ?m ?out (pre ?R 0)) => change (pre R 0) with (@nil Z); rewrite (rmem_nil m out) end;
  rewrite rdp_0 in *; apply Hp0; lia.
Ltac hroom :=
  cbn [s_len] in *;
  lazymatch goal with |- ?q <= short ?n ?out =>
    first [ apply (short_batch n out q); first [lia | (Z.to_euclidean_division_equations; lia)]
          | match goal with H : ?k mod 16 = 0 |- _ => apply (short_batch n out (k + 16)); lia end
          | match goal with H : ?k mod 16 = 0 |- _ => apply (short_batch n out k); lia end
          | match goal with H : ?k mod 4 = 0 |- _ => apply (short_group n out k); lia end
          | match goal with H : ?k mod 4 = 0 |- _ => apply (short_group n out (k + 4)); lia end
          | apply (short_tail n out); lia ] end.
Ltac hpq Hp q sel :=
  apply (Hp q); [unfold at_q; split; [lia|split; [lia|hroom]]|];
  unfold out_stop, data_stop, data_stop_delta; sel;
  first [lia|rewrite <- ?Z.add_assoc; change (4 + 4) with 8; change (8 + 4) with 12; change (12 + 4) with 16; lia].
Ltac o1 := left; left.
Ltac o2 := left; right; left.
Ltac o3 := left; right; right.
Ltac d1 := right; left.
Ltac d2 := right; right.
Ltac d0 := right.

(** reader.go:50-97 *)
Lemma oc_ReadAllScalar n st out m S (Q : unit -> mem -> Prop) P :
  let R := rD S n in
  rok (fun _ => True) m st out n S -> n <= 2 ^ 62 -> s_len st <= 2 ^ 62 ->
  (rdp S n n <= s_len st -> okout n out -> Q tt (rmem m out R)) ->
  (0 < n -> s_len st < rcl n -> P m) ->
  (forall q, at_q S n st out q -> out_stop n out q \/ data_stop S n st q -> P (rmem m out (pre R q))) ->
  outcome (ReadAllScalar n st out) m Q P.
Proof.
  intros R Hok Hn62 Hs62 HQ Hp0 Hp. pose proof (r_n _ _ _ _ _ _ Hok) as Hn0. pose proof (rok_zlen _ _ _ _ _ _ Hok) as HS.
  assert (Hst := r_st _ _ _ _ _ _ Hok). assert (Hout := r_out _ _ _ _ _ _ Hok).
  destruct Hst as (I1 & I2 & I3). destruct Hout as (O1 & O2 & O3).
  pose proof (rcl_bounds n Hn0) as Hc.
  assert (HMON : forall k, 0 <= k <= n -> rdp S n k <= rdp S n n) by (intros; apply rdp_mono; lia).
  assert (HGE : forall k, rcl n <= rdp S n k) by (intros; apply rdp_ge).
  unfold ReadAllScalar. cbv zeta. change jump with 16. change jumpCtrl with 4.
  rewrite (iadd_small n 3) by lia. rewrite idiv_pos by lia.
  assert (Hcl : (n + 3) / 4 = rcl n) by (by rewrite rcl_eq). rewrite !Hcl.
  change (isub 16 1) with (2 ^ 4 - 1). change (iandnot n 3) with (iandnot n (2 ^ 2 - 1)). rewrite !iandnot_pow2 by lia.
  change (2 ^ 4) with 16. change (2 ^ 2) with 4.
  assert (EL16 : l16 n = n / 16 * 16) by done. assert (EL4 : l4 n = n / 4 * 4) by done. rewrite <- EL16, <- EL4.
  remember (l16 n) as L16 eqn:HeqL16. remember (l4 n) as L4 eqn:HeqL4.
  assert (Hl16 : L16 mod 16 = 0 /\ 0 <= L16 <= n /\ (L16 < n -> n mod 16 <> 0) /\ (L16 = n -> n mod 16 = 0)) by (rewrite EL16; split; [apply Z.mod_mul; lia|Z.to_euclidean_division_equations; lia]).
  assert (Hl4 : L4 mod 4 = 0 /\ L16 <= L4 <= n /\ n - L4 < 4) by (rewrite EL4, EL16; split; [apply Z.mod_mul; lia|Z.to_euclidean_division_equations; lia]).
  apply oc_bind, (oc_while (fun '(dp, cp, k) m' =>
      0 <= k <= L16 /\ k mod 16 = 0 /\ cp = k / 4 /\ dp = rdp S n k /\ (k = 0 \/ (rdp S n k <= s_len st /\ k <= s_cap out)) /\ m' = rmem m out (pre R k))
    (fun '(_, _, k) => s_cap out - k)).
  - split; [lia|]. split; [done|]. split; [done|]. split; [by rewrite rdp_0|]. split; [by left|].
    change (pre R 0) with (@nil Z). by rewrite rmem_nil.
  - lia.
  - unfold rfuel. lia.
  - intros [[dp cp] k] m' (Hk & Hk16 & -> & -> & Hkb & ->) Hcond _. apply Z.ltb_lt in Hcond.
    assert (k + 16 <= L16) by (Z.to_euclidean_division_equations; lia).
    assert (Hk4 : (k + 4) / 4 = k / 4 + 1 /\ (k + 8) / 4 = k / 4 + 2 /\ (k + 12) / 4 = k / 4 + 3 /\ (k + 16) / 4 = k / 4 + 4) by (Z.to_euclidean_division_equations; lia).
    assert (Hm4 : k mod 4 = 0 /\ (k + 4) mod 4 = 0 /\ (k + 8) mod 4 = 0 /\ (k + 12) mod 4 = 0 /\ (k + 16) mod 16 = 0) by (Z.to_euclidean_division_equations; lia).
    assert (0 <= k / 4 /\ k / 4 + 4 <= rcl n) by (Z.to_euclidean_division_equations; lia).
    pose proof (HMON k ltac:(lia)). pose proof (HMON (k + 4) ltac:(lia)). pose proof (HMON (k + 8) ltac:(lia)).
    pose proof (HMON (k + 12) ltac:(lia)). pose proof (HMON (k + 16) ltac:(lia)). pose proof (HGE k).
    ints. osl; [|hp0 Hp0 k].
    pose proof (rdp_diff S n k (k + 4) ltac:(lia) ltac:(lia) ltac:(lia)). pose proof (rdp_diff S n (k + 4) (k + 8) ltac:(lia) ltac:(lia) ltac:(lia)).
    pose proof (rdp_diff S n (k + 8) (k + 12) ltac:(lia) ltac:(lia) ltac:(lia)). pose proof (rdp_diff S n (k + 12) (k + 16) ltac:(lia) ltac:(lia) ltac:(lia)).
    osl; [|lia]. osl; [|hpq Hp k o1].
    replace (k / 4 + 4 - k / 4) with 4 by lia. replace (k + 16 - k) with 16 by lia.
    apply (oc_rctrl m st out n S Hok _ _ _ (k / 4)); try rsolve.
    apply (oc_r4 m st out n S Hok k (k + 4)); try rsolve; [|cbn [s_len]; intros [?|?]; [hpq Hp (k) d1|lia]]. intros G1 _ E1. rewrite E1.
    apply (oc_rctrl m st out n S Hok _ _ _ ((k + 4) / 4)); try rsolve.
    osl; [|lia]. osl; [|lia].
    apply (oc_r4 m st out n S Hok (k + 4) (k + 8)); try rsolve; [|cbn [s_len]; intros [?|?]; [hpq Hp (k + 4) d1|lia]]. intros G2 _ E2. rewrite E2.
    apply (oc_rctrl m st out n S Hok _ _ _ ((k + 8) / 4)); try rsolve.
    ints. osl; [|lia]. osl; [|lia].
    apply (oc_r4 m st out n S Hok (k + 8) (k + 12)); try rsolve; [|cbn [s_len]; intros [?|?]; [hpq Hp (k + 8) d1|lia]]. intros G3 _ E3. rewrite E3.
    apply (oc_rctrl m st out n S Hok _ _ _ ((k + 12) / 4)); try rsolve.
    ints. osl; [|lia]. osl; [|lia].
    apply (oc_r4 m st out n S Hok (k + 12) (k + 16)); try rsolve; [|cbn [s_len]; intros [?|?]; [hpq Hp (k + 12) d1|lia]]. intros G4 _ E4. rewrite E4.
    ints. apply oc_ret. split; [|lia]. split; [lia|]. split; [lia|]. split; [lia|]. split; [lia|]. split; [right; lia|done].
  - intros [[dp cp] k] m' (Hk & Hk16 & -> & -> & Hkb & ->) Hcond. apply Z.ltb_ge in Hcond.
    assert (k = L16) as -> by lia. clear Hk Hk16 Hcond.
    apply oc_bind, (oc_while (fun '(dp, cp, k) m' =>
      L16 <= k <= L4 /\ k mod 4 = 0 /\ cp = k / 4 /\ dp = rdp S n k /\
      ((k = L16 /\ (k = 0 \/ (rdp S n k <= s_len st /\ k <= s_cap out))) \/ (rdp S n k <= s_len st /\ k <= s_len out)) /\ m' = rmem m out (pre R k))
      (fun '(_, _, k) => s_cap out - k)).
    + split; [lia|]. split; [Z.to_euclidean_division_equations; lia|]. split; [done|]. split; [done|]. split; [by left|done].
    + lia.
    + unfold rfuel. lia.
    + intros [[dp cp] k] m' (Hk & Hk4 & -> & -> & Hkb' & ->) Hcond _. apply Z.ltb_lt in Hcond.
      assert (k + 4 <= L4) by (clear -Hk4 Hl4 Hcond; Z.to_euclidean_division_equations; lia).
      assert (0 <= k / 4 /\ k / 4 + 1 <= rcl n /\ (k + 4) / 4 = k / 4 + 1 /\ (k + 4) mod 4 = 0) by (clear -Hl16 Hk Hk4 Hl4 Hcond Hc; Z.to_euclidean_division_equations; lia).
      pose proof (HMON k ltac:(lia)). pose proof (HMON (k + 4) ltac:(lia)). pose proof (HGE k).
      destruct (Z.lt_ge_cases (k / 4) (s_len st)) as [Hks|Hks].
      2:{ unfold getB. apply oc_bind, oc_bind, oc_check_idx; [lia|]. intros _. hp0 Hp0 k. }
      apply (oc_rctrl m st out n S Hok _ _ _ (k / 4)); try rsolve.
      ints. osl; [|hp0 Hp0 k]. osl; [|hpq Hp k o2].
      pose proof (rdp_diff S n k (k + 4) ltac:(lia) ltac:(lia) ltac:(lia)).
      apply (oc_r4 m st out n S Hok k (k + 4)); try rsolve.
      2:{ cbn [s_len]. intros [?|?]; [hpq Hp k d1|hpq Hp k o2]. }
      cbn [s_len]. intros G1 G2 E. rewrite E. ints. apply oc_ret.
      split; [|lia]. split; [lia|]. split; [lia|]. split; [lia|]. split; [lia|]. split; [right; lia|done].
    + intros [[dp cp] k] m' (Hk & Hk4 & -> & -> & Hkb' & ->) Hcond. apply Z.ltb_ge in Hcond.
      assert (k = L4) as -> by lia. clear Hk Hk4 Hcond.
      pose proof (HMON L4 ltac:(lia)). pose proof (HGE L4).
      destruct (Z.eqb_spec L4 n) as [E|NE]; cbn [negb].
      * apply oc_ret. rewrite E in *.
        assert (Hfit : rdp S n n <= s_len st).
        { destruct Hkb' as [[_ [->|?]]|?]; [|lia|lia]. rewrite rdp_0. change (rcl 0) with 0. lia. }
        pose proof (HGE n).
        rewrite pre_ge by (unfold R; rewrite rD_zlen; lia). apply HQ; [done|]. unfold okout.
        destruct Hkb' as [[? [?|?]]|?]; [right|right|left]; lia.
      * assert (0 <= L4 / 4 /\ L4 / 4 + 1 <= rcl n) by (clear -Hl16 Hl4 Hc NE; Z.to_euclidean_division_equations; lia).
        osl; [|hp0 Hp0 L4]. osl; [|hpq Hp L4 o3].
        pose proof (rdp_diff S n L4 n ltac:(lia) ltac:(lia) ltac:(lia)).
        apply (oc_rctrl m st out n S Hok _ _ _ (L4 / 4)); try rsolve.
        ints. apply (oc_rj m st out n S Hok L4 n (n - L4)); try rsolve.
        2:{ cbn [s_len]. intros i Hi1 Hi2 Hi3 Hi4. destruct Hi4; [hpq Hp (L4 + i) d2|hpq Hp (L4 + i) o3]. }
        cbn [s_len]. intros G1 G2. apply oc_ret.
        rewrite pre_ge by (unfold R; rewrite rD_zlen; lia). apply HQ; [done|]. left. lia.
Qed.

(** reader.go:106-155 *)
Lemma oc_ReadAllDeltaScalar n st out prev m S (Q : unit -> mem -> Prop) P :
  let R := running_sums prev (rD S n) in
  rok (fun _ => True) m st out n S -> n <= 2 ^ 62 -> s_len st <= 2 ^ 62 ->
  (rdp S n n <= s_len st -> okout n out -> Q tt (rmem m out R)) ->
  (0 < n -> s_len st < rcl n -> P m) ->
  (forall q, at_q S n st out q -> out_stop n out q \/ data_stop_delta S n st q -> P (rmem m out (pre R q))) ->
  outcome (ReadAllDeltaScalar n st out prev) m Q P.
Proof.
  intros R Hok Hn62 Hs62 HQ Hp0 Hp. pose proof (r_n _ _ _ _ _ _ Hok) as Hn0. pose proof (rok_zlen _ _ _ _ _ _ Hok) as HS.
  assert (Hst := r_st _ _ _ _ _ _ Hok). assert (Hout := r_out _ _ _ _ _ _ Hok).
  destruct Hst as (I1 & I2 & I3). destruct Hout as (O1 & O2 & O3).
  pose proof (rcl_bounds n Hn0) as Hc.
  assert (HMON : forall k, 0 <= k <= n -> rdp S n k <= rdp S n n) by (intros; apply rdp_mono; lia).
  assert (HGE : forall k, rcl n <= rdp S n k) by (intros; apply rdp_ge).
  unfold ReadAllDeltaScalar. cbv zeta. change jump with 16. change jumpCtrl with 4.
  rewrite (iadd_small n 3) by lia. rewrite idiv_pos by lia.
  assert (Hcl : (n + 3) / 4 = rcl n) by (by rewrite rcl_eq). rewrite !Hcl.
  change (isub 16 1) with (2 ^ 4 - 1). change (iandnot n 3) with (iandnot n (2 ^ 2 - 1)). rewrite !iandnot_pow2 by lia.
  change (2 ^ 4) with 16. change (2 ^ 2) with 4.
  assert (EL16 : l16 n = n / 16 * 16) by done. assert (EL4 : l4 n = n / 4 * 4) by done. rewrite <- EL16, <- EL4.
  remember (l16 n) as L16 eqn:HeqL16. remember (l4 n) as L4 eqn:HeqL4.
  assert (Hl16 : L16 mod 16 = 0 /\ 0 <= L16 <= n /\ (L16 < n -> n mod 16 <> 0) /\ (L16 = n -> n mod 16 = 0)) by (rewrite EL16; split; [apply Z.mod_mul; lia|Z.to_euclidean_division_equations; lia]).
  assert (Hl4 : L4 mod 4 = 0 /\ L16 <= L4 <= n /\ n - L4 < 4) by (rewrite EL4, EL16; split; [apply Z.mod_mul; lia|Z.to_euclidean_division_equations; lia]).
  assert (HR : rcl n <= s_len st -> zlen R = n) by (intros; unfold R; rewrite zlen_running_sums; apply rD_zlen; lia).
  apply oc_bind, (oc_while (fun '(dp, cp, k, p) m' =>
      0 <= k <= L16 /\ k mod 16 = 0 /\ cp = k / 4 /\ dp = rdp S n k /\ (k = 0 \/ (rdp S n k <= s_len st /\ k <= s_cap out)) /\ p = pv prev R k /\ m' = rmem m out (pre R k))
    (fun '(_, _, k, _) => s_cap out - k)).
  - split; [lia|]. split; [done|]. split; [done|]. split; [by rewrite rdp_0|]. split; [by left|]. split; [done|].
    change (pre R 0) with (@nil Z). by rewrite rmem_nil.
  - lia.
  - unfold rfuel. lia.
  - intros [[[dp cp] k] p] m' (Hk & Hk16 & -> & -> & Hkb & -> & ->) Hcond _. apply Z.ltb_lt in Hcond.
    assert (k + 16 <= L16) by (Z.to_euclidean_division_equations; lia).
    assert (Hk4 : (k + 4) / 4 = k / 4 + 1 /\ (k + 8) / 4 = k / 4 + 2 /\ (k + 12) / 4 = k / 4 + 3 /\ (k + 16) / 4 = k / 4 + 4) by (Z.to_euclidean_division_equations; lia).
    assert (Hm4 : k mod 4 = 0 /\ (k + 4) mod 4 = 0 /\ (k + 8) mod 4 = 0 /\ (k + 12) mod 4 = 0 /\ (k + 16) mod 16 = 0) by (Z.to_euclidean_division_equations; lia).
    assert (0 <= k / 4 /\ k / 4 + 4 <= rcl n) by (Z.to_euclidean_division_equations; lia).
    pose proof (HMON k ltac:(lia)). pose proof (HMON (k + 4) ltac:(lia)). pose proof (HMON (k + 8) ltac:(lia)).
    pose proof (HMON (k + 12) ltac:(lia)). pose proof (HMON (k + 16) ltac:(lia)). pose proof (HGE k).
    ints. osl; [|hp0 Hp0 k].
    pose proof (rdp_diff S n k (k + 4) ltac:(lia) ltac:(lia) ltac:(lia)). pose proof (rdp_diff S n (k + 4) (k + 8) ltac:(lia) ltac:(lia) ltac:(lia)).
    pose proof (rdp_diff S n (k + 8) (k + 12) ltac:(lia) ltac:(lia) ltac:(lia)). pose proof (rdp_diff S n (k + 12) (k + 16) ltac:(lia) ltac:(lia) ltac:(lia)).
    osl; [|lia]. osl; [|hpq Hp k o1].
    replace (k / 4 + 4 - k / 4) with 4 by lia. replace (k + 16 - k) with 16 by lia.
    apply (oc_rctrl m st out n S Hok _ _ _ (k / 4)); try rsolve.
    apply (oc_r4d m st out n S Hok prev k (k + 4)); try rsolve; [|intros _ i Hi1 Hi2; hpq Hp (k + i) d0]. intros G1 _ E1. rewrite E1.
    apply (oc_rctrl m st out n S Hok _ _ _ ((k + 4) / 4)); try rsolve.
    osl; [|lia]. osl; [|lia]. apply (oc_rlast m st out n S Hok prev R (k + 4) _ _ k); try rsolve.
    apply (oc_r4d m st out n S Hok prev (k + 4) (k + 8)); try rsolve; [|intros _ i Hi1 Hi2; hpq Hp (k + 4 + i) d0]. intros G2 _ E2. rewrite E2.
    apply (oc_rctrl m st out n S Hok _ _ _ ((k + 8) / 4)); try rsolve.
    ints. osl; [|lia]. osl; [|lia]. apply (oc_rlast m st out n S Hok prev R (k + 8) _ _ k); try rsolve.
    apply (oc_r4d m st out n S Hok prev (k + 8) (k + 12)); try rsolve; [|intros _ i Hi1 Hi2; hpq Hp (k + 8 + i) d0]. intros G3 _ E3. rewrite E3.
    apply (oc_rctrl m st out n S Hok _ _ _ ((k + 12) / 4)); try rsolve.
    ints. osl; [|lia]. osl; [|lia]. apply (oc_rlast m st out n S Hok prev R (k + 12) _ _ k); try rsolve.
    apply (oc_r4d m st out n S Hok prev (k + 12) (k + 16)); try rsolve; [|intros _ i Hi1 Hi2; hpq Hp (k + 12 + i) d0]. intros G4 _ E4. rewrite E4. apply (oc_rlast m st out n S Hok prev R (k + 16) _ _ k); try rsolve.
    ints. apply oc_ret. split; [|lia]. split; [lia|]. split; [lia|]. split; [lia|]. split; [lia|]. split; [right; lia|]. split; done.
  - intros [[[dp cp] k] p] m' (Hk & Hk16 & -> & -> & Hkb & -> & ->) Hcond. apply Z.ltb_ge in Hcond.
    assert (k = L16) as -> by lia. clear Hk Hk16 Hcond.
    apply oc_bind, (oc_while (fun '(dp, cp, k, p) m' =>
      L16 <= k <= L4 /\ k mod 4 = 0 /\ cp = k / 4 /\ dp = rdp S n k /\
      ((k = L16 /\ (k = 0 \/ (rdp S n k <= s_len st /\ k <= s_cap out))) \/ (rdp S n k <= s_len st /\ k <= s_len out)) /\ p = pv prev R k /\ m' = rmem m out (pre R k))
      (fun '(_, _, k, _) => s_cap out - k)).
    + split; [lia|]. split; [Z.to_euclidean_division_equations; lia|]. split; [done|]. split; [done|]. split; [by left|]. split; done.
    + lia.
    + unfold rfuel. lia.
    + intros [[[dp cp] k] p] m' (Hk & Hk4 & -> & -> & Hkb' & -> & ->) Hcond _. apply Z.ltb_lt in Hcond.
      assert (k + 4 <= L4) by (clear -Hk4 Hl4 Hcond; Z.to_euclidean_division_equations; lia).
      assert (0 <= k / 4 /\ k / 4 + 1 <= rcl n /\ (k + 4) / 4 = k / 4 + 1 /\ (k + 4) mod 4 = 0) by (clear -Hl16 Hk Hk4 Hl4 Hcond Hc; Z.to_euclidean_division_equations; lia).
      pose proof (HMON k ltac:(lia)). pose proof (HMON (k + 4) ltac:(lia)). pose proof (HGE k).
      destruct (Z.lt_ge_cases (k / 4) (s_len st)) as [Hks|Hks].
      2:{ unfold getB. apply oc_bind, oc_bind, oc_check_idx; [lia|]. intros _. hp0 Hp0 k. }
      apply (oc_rctrl m st out n S Hok _ _ _ (k / 4)); try rsolve.
      ints. osl; [|hp0 Hp0 k]. osl; [|hpq Hp k o2].
      pose proof (rdp_diff S n k (k + 4) ltac:(lia) ltac:(lia) ltac:(lia)).
      apply (oc_r4d m st out n S Hok prev k (k + 4)); try rsolve.
      2:{ cbn [s_len]. intros ?. hpq Hp k o2. }
      2:{ cbn [s_len]. intros ? i Hi1 Hi2. hpq Hp (k + i) d0. }
      cbn [s_len]. intros G1 G2 E. rewrite E. ints. apply (oc_rlast m st out n S Hok prev R (k + 4) _ _ 0); try rsolve. apply oc_ret.
      split; [|lia]. split; [lia|]. split; [lia|]. split; [lia|]. split; [lia|]. split; [right; lia|]. split; done.
    + intros [[[dp cp] k] p] m' (Hk & Hk4 & -> & -> & Hkb' & -> & ->) Hcond. apply Z.ltb_ge in Hcond.
      assert (k = L4) as -> by lia. clear Hk Hk4 Hcond.
      pose proof (HMON L4 ltac:(lia)). pose proof (HGE L4).
      destruct (Z.eqb_spec L4 n) as [E|NE]; cbn [negb].
      * apply oc_ret. rewrite E in *.
        assert (Hfit : rdp S n n <= s_len st).
        { destruct Hkb' as [[_ [->|?]]|?]; [|lia|lia]. rewrite rdp_0. change (rcl 0) with 0. lia. }
        pose proof (HGE n).
        rewrite pre_ge by (rewrite HR; lia). apply HQ; [done|]. unfold okout.
        destruct Hkb' as [[? [?|?]]|?]; [right|right|left]; lia.
      * assert (0 <= L4 / 4 /\ L4 / 4 + 1 <= rcl n) by (clear -Hl16 Hl4 Hc NE; Z.to_euclidean_division_equations; lia).
        osl; [|hp0 Hp0 L4]. osl; [|hpq Hp L4 o3].
        pose proof (rdp_diff S n L4 n ltac:(lia) ltac:(lia) ltac:(lia)).
        apply (oc_rctrl m st out n S Hok _ _ _ (L4 / 4)); try rsolve.
        ints. apply (oc_rjd m st out n S Hok prev L4 n (n - L4)); try rsolve.
        2:{ cbn [s_len]. intros i Hi1 Hi2 Hi3 Hi4. destruct Hi4; [hpq Hp (L4 + i) d0|hpq Hp (L4 + i) o3]. }
        cbn [s_len]. intros G1 G2. apply oc_ret.
        fold R. rewrite pre_ge by (rewrite HR; lia). apply HQ; [done|]. left. lia.
Qed.
