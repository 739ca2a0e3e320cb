(** * Rules for GetUint32Scalar, Get8uint32Scalar and their delta variants *)
From stdpp Require Import prelude gmap list.
From Coq Require Import ZArith Lia.
From Verif Require Import Spec SpecLemmas GoSem Tables Shared Asm Wp Encode Decode TableProof EncodeProof EncodeProof2 SimdProof AsmProof DecodeProof.
Local Open Scope Z_scope.
Implicit Types (F : event -> Prop) (pn : Prop).

Lemma size_lens c i : is_byte c -> (i < 4)%nat ->
  u8 (Z.land (Z.shiftr c (2 * Z.of_nat i)) 3 + 1) = Z.of_nat (nth i (ctrl_lens c) 0%nat).
Proof.
  intros Hc Hi. apply Z.eqb_eq. revert c Hc. apply byte_sweep.
  destruct i as [|[|[|[|i]]]]; [vm_compute; reflexivity..|lia].
Qed.

Lemma lens_lookup c i : (i < 4)%nat -> ctrl_lens c !! i = Some (nth i (ctrl_lens c) 0%nat).
Proof. unfold ctrl_lens. intros. destruct i as [|[|[|[|i]]]]; [done..|lia]. Qed.

(** The first [n] numbers of a group, and the bytes they take. *)
Definition numsk (c : Z) (n : nat) (data : list Z) : list Z := map le_val (cut (take n (ctrl_lens c)) data).
Definition sizek (c : Z) (n : nat) : Z := Z.of_nat (sum_nat (take n (ctrl_lens c))).

Lemma sizek_S c i : (i < 4)%nat -> sizek c (S i) = sizek c i + Z.of_nat (nth i (ctrl_lens c) 0%nat).
Proof.
  intros Hi. unfold sizek. assert (L : ctrl_lens c !! i = Some (nth i (ctrl_lens c) 0%nat)) by (by apply lens_lookup).
  rewrite (take_S_r _ _ _ L), sum_nat_app. cbn [sum_nat fold_right]. lia.
Qed.
Lemma sizek_nonneg c i : 0 <= sizek c i.
Proof. unfold sizek. lia. Qed.
Lemma sizek_mono c i j : (i <= j <= 4)%nat -> sizek c i <= sizek c j.
Proof.
  intros [H1 H2]. induction j as [|j IH]; [replace i with 0%nat by lia; done|].
  destruct (decide (i = S j)) as [->|]; [done|]. rewrite sizek_S by lia. specialize (IH ltac:(lia) ltac:(lia)). lia.
Qed.
Lemma nth_ctrl_lens c i : (i < 4)%nat -> 1 <= Z.of_nat (nth i (ctrl_lens c) 0%nat) <= 4.
Proof.
  intros Hi. pose proof (Forall_lookup_1 _ _ _ _ (ctrl_lens_range c) (lens_lookup c i Hi)) as Hr. cbv beta in Hr. lia.
Qed.
Lemma sizek_bounds c i : (i <= 4)%nat -> Z.of_nat i <= sizek c i <= 4 * Z.of_nat i.
Proof.
  induction i as [|i IH]; intros; [done|]. rewrite sizek_S by lia. pose proof (nth_ctrl_lens c i ltac:(lia)). specialize (IH ltac:(lia)). lia.
Qed.
Lemma numsk_S c i o l : (i < 4)%nat -> 0 <= o ->
  numsk c (S i) (drop (Z.to_nat o) l) =
  numsk c i (drop (Z.to_nat o) l) ++ [le_val (sub (o + sizek c i) (Z.of_nat (nth i (ctrl_lens c) 0%nat)) l)].
Proof.
  intros Hi Ho. unfold numsk. assert (L : ctrl_lens c !! i = Some (nth i (ctrl_lens c) 0%nat)) by (by apply lens_lookup).
  rewrite (take_S_r _ _ _ L), cut_app, map_app. f_equal. cbn [cut map]. unfold sub, sizek.
  rewrite Nat2Z.id. change (skipn ?n ?d) with (drop n d). change (firstn ?n ?d) with (take n d). rewrite drop_drop. repeat f_equal. lia.
Qed.
Lemma numsk_length c n d : (n <= 4)%nat -> zlen (numsk c n d) = Z.of_nat n.
Proof. intros. unfold numsk, zlen. rewrite map_length, cut_length, take_length, ctrl_lens_length. lia. Qed.
Lemma numsk_4 c d : numsk c 4 d = nums4 c d.
Proof. unfold numsk, nums4. rewrite take_ge; [done|]. by rewrite ctrl_lens_length. Qed.
Lemma sizek_4 c : sizek c 4 = Z.of_nat (sum_nat (ctrl_lens c)).
Proof. unfold sizek. rewrite take_ge; [done|]. by rewrite ctrl_lens_length. Qed.
Lemma nums4_length c d : zlen (nums4 c d) = 4.
Proof. rewrite <- numsk_4, numsk_length; done. Qed.

(** decode.go:82-101 *)
Lemma wp_GetUint32Scalar F pn inp out c count m (Q : Z -> mem -> Prop) :
  let n := clip count in
  let sz := sizek c (Z.to_nat n) in
  is_byte c -> inb (mb m) inp -> inb (mw m) out -> Forall is_byte (blk (mb m) (s_blk inp)) ->
  (forall j, s_off inp <= j < s_off inp + sz -> j < s_off inp + s_len inp -> F (ERdB (s_blk inp) j)) ->
  (forall j, s_off out <= j < s_off out + n -> j < s_off out + s_len out -> F (EWrW (s_blk out) j)) ->
  (sz <= s_len inp -> n <= s_len out ->
    Q sz (setw m (s_blk out) (splice (s_off out)
       (numsk c (Z.to_nat n) (drop (Z.to_nat (s_off inp)) (blk (mb m) (s_blk inp)))) (blk (mw m) (s_blk out))))) ->
  (s_len inp < sz \/ s_len out < n -> pn) ->
  wp F pn (GetUint32Scalar inp out c count) m Q.
Proof.
  intros n sz Hc Hi Ho Hb HF1 HF2 HQ Hp.
  assert (Hi' := Hi). destruct Hi as (Hi1 & Hi2 & Hi3). assert (Ho' := Ho). destruct Ho as (Ho1 & Ho2 & Ho3).
  unfold GetUint32Scalar.
  set (L := blk (mb m) (s_blk inp)) in *. set (W := blk (mw m) (s_blk out)) in *.
  set (D := drop (Z.to_nat (s_off inp)) L) in *.
  destruct (Z.eqb_spec count 0) as [->|Hc0].
  { cbn. change (clip 0) with 0 in n. subst n sz. change (Z.to_nat 0) with 0%nat in *. change (numsk c 0 D) with (@nil Z) in HQ.
    rewrite splice_nil in HQ. unfold W in HQ. rewrite setw_id in HQ. apply HQ; [|lia]. unfold sizek. cbn. lia. }
  set (cnt := if 4 <? count then 4 else count).
  assert (Hn : n = Z.max 0 cnt) by (subst n cnt; unfold clip; destruct (Z.ltb_spec 4 count); lia).
  assert (Hn4 : 0 <= n <= 4) by (subst n; unfold clip; lia).
  apply wp_bind.
  apply (wp_while _ _ (fun '(i, shift, total) m' =>
      0 <= i <= n /\ i <= s_len out /\ shift = 2 * i /\ total = sizek c (Z.to_nat i) /\ total <= s_len inp /\
      m' = setw m (s_blk out) (splice (s_off out) (numsk c (Z.to_nat i) D) W))
    (fun '(i, _, _) => n - i)).
  - change (Z.to_nat 0) with 0%nat. change (numsk c 0 D) with (@nil Z). rewrite splice_nil. unfold W. rewrite setw_id.
    unfold sizek. cbn. repeat split; lia.
  - lia.
  - lia.
  - intros [[i shift] total] m' (Hin & Hil & -> & -> & Htot & ->) Hcond _.
    apply Z.ltb_lt in Hcond. assert (i < n) by lia.
    assert (size : u8 (Z.land (Z.shiftr c (2 * i)) 3 + 1) = Z.of_nat (nth (Z.to_nat i) (ctrl_lens c) 0%nat)).
    { rewrite <- size_lens by (done || lia). by rewrite Z2Nat.id by lia. }
    cbv zeta. rewrite !size.
    pose proof (nth_ctrl_lens c (Z.to_nat i) ltac:(lia)) as Hs.
    pose proof (sizek_S c (Z.to_nat i) ltac:(lia)) as HS. replace (S (Z.to_nat i)) with (Z.to_nat (i + 1)) in HS by lia.
    pose proof (sizek_mono c (Z.to_nat (i + 1)) (Z.to_nat n) ltac:(lia)) as HM. fold sz in HM.
    pose proof (sizek_nonneg c (Z.to_nat i)). pose proof (sizek_bounds c (Z.to_nat i) ltac:(lia)).
    apply wp_dec_step; [lia|lia|done|done| |intros; apply Hp; lia]. intros G.
    split; [intros; apply HF1; lia|]. change (mb (setw m ?b ?l)) with (mb m). fold L.
    assert (HR : numsk c (Z.to_nat (i + 1)) D = numsk c (Z.to_nat i) D ++ [le_val (sub (s_off inp + sizek c (Z.to_nat i)) (Z.of_nat (nth (Z.to_nat i) (ctrl_lens c) 0%nat)) L)]).
    { replace (Z.to_nat (i + 1)) with (S (Z.to_nat i)) by lia. apply numsk_S; lia. }
    assert (HRl : zlen (numsk c (Z.to_nat i) D) = i) by (rewrite numsk_length; lia).
    assert (HSL : length (splice (s_off out) (numsk c (Z.to_nat i) D) W) = length W) by (apply splice_length; lia).
    apply wp_bind, wp_setW; [by apply inb_setw| |intros; apply Hp; lia].
    intros Hii. split; [apply HF2; lia|].
    rewrite blk_setw by done. rewrite setw_setw. ints. cbn [wp]. split; [|lia].
    split; [lia|]. split; [lia|]. split; [lia|]. split; [lia|]. split; [lia|].
    rewrite HR. rewrite <- HRl at 1. rewrite splice_app_l; [done|lia|].
    rewrite zlen_cons, zlen_nil; lia.
  - intros [[i shift] total] m' (Hin & Hil & -> & -> & Htot & ->) Hcond.
    apply Z.ltb_ge in Hcond. assert (i = n) as -> by lia. cbn [wp].
    apply HQ; [done|lia].
Qed.

Lemma rs_snoc p xs x : running_sums p (xs ++ [x]) = running_sums p xs ++ [(default p (last (running_sums p xs)) + x) mod 2 ^ 32].
Proof. by rewrite running_sums_app. Qed.

Lemma zlen_running_sums p xs : zlen (running_sums p xs) = zlen xs.
Proof. unfold zlen. by rewrite running_sums_length. Qed.

(** decode.go:109-130 *)
Lemma wp_GetUint32DeltaScalar F pn inp out c count prev m (Q : Z -> mem -> Prop) :
  let n := clip count in
  let sz := sizek c (Z.to_nat n) in
  is_byte c -> inb (mb m) inp -> inb (mw m) out -> Forall is_byte (blk (mb m) (s_blk inp)) ->
  (forall j, s_off inp <= j < s_off inp + sz -> j < s_off inp + s_len inp -> F (ERdB (s_blk inp) j)) ->
  (forall j, s_off out <= j < s_off out + n -> j < s_off out + s_len out -> F (EWrW (s_blk out) j)) ->
  (sz <= s_len inp -> n <= s_len out ->
    Q sz (setw m (s_blk out) (splice (s_off out)
       (running_sums prev (numsk c (Z.to_nat n) (drop (Z.to_nat (s_off inp)) (blk (mb m) (s_blk inp))))) (blk (mw m) (s_blk out))))) ->
  (s_len inp < sz \/ s_len out < n -> pn) ->
  wp F pn (GetUint32DeltaScalar inp out c count prev) m Q.
Proof.
  intros n sz Hc Hi Ho Hb HF1 HF2 HQ Hp.
  assert (Hi' := Hi). destruct Hi as (Hi1 & Hi2 & Hi3). assert (Ho' := Ho). destruct Ho as (Ho1 & Ho2 & Ho3).
  unfold GetUint32DeltaScalar.
  set (L := blk (mb m) (s_blk inp)) in *. set (W := blk (mw m) (s_blk out)) in *.
  set (D := drop (Z.to_nat (s_off inp)) L) in *.
  destruct (Z.eqb_spec count 0) as [->|Hc0].
  { cbn. change (clip 0) with 0 in n. subst n sz. change (Z.to_nat 0) with 0%nat in *. change (running_sums prev (numsk c 0 D)) with (@nil Z) in HQ.
    rewrite splice_nil in HQ. unfold W in HQ. rewrite setw_id in HQ. apply HQ; [|lia]. unfold sizek. cbn. lia. }
  set (cnt := if 4 <? count then 4 else count).
  assert (Hn : n = Z.max 0 cnt) by (subst n cnt; unfold clip; destruct (Z.ltb_spec 4 count); lia).
  assert (Hn4 : 0 <= n <= 4) by (subst n; unfold clip; lia).
  set (R := fun i => running_sums prev (numsk c (Z.to_nat i) D)) in *.
  apply wp_bind.
  apply (wp_while _ _ (fun '(i, shift, total, p) m' =>
      0 <= i <= n /\ i <= s_len out /\ shift = 2 * i /\ total = sizek c (Z.to_nat i) /\ total <= s_len inp /\
      p = default prev (last (R i)) /\
      m' = setw m (s_blk out) (splice (s_off out) (R i) W))
    (fun '(i, _, _, _) => n - i)).
  - change (R 0) with (@nil Z). change (Z.to_nat 0) with 0%nat. rewrite splice_nil. unfold W. rewrite setw_id.
    unfold sizek. cbn. repeat split; lia.
  - lia.
  - lia.
  - intros [[[i shift] total] p] m' (Hin & Hil & -> & -> & Htot & -> & ->) Hcond _.
    apply Z.ltb_lt in Hcond. assert (i < n) by lia.
    assert (size : u8 (Z.land (Z.shiftr c (2 * i)) 3 + 1) = Z.of_nat (nth (Z.to_nat i) (ctrl_lens c) 0%nat)).
    { rewrite <- size_lens by (done || lia). by rewrite Z2Nat.id by lia. }
    cbv zeta. rewrite !size.
    pose proof (nth_ctrl_lens c (Z.to_nat i) ltac:(lia)) as Hs.
    pose proof (sizek_S c (Z.to_nat i) ltac:(lia)) as HS. replace (S (Z.to_nat i)) with (Z.to_nat (i + 1)) in HS by lia.
    pose proof (sizek_mono c (Z.to_nat (i + 1)) (Z.to_nat n) ltac:(lia)) as HM. fold sz in HM.
    pose proof (sizek_nonneg c (Z.to_nat i)). pose proof (sizek_bounds c (Z.to_nat i) ltac:(lia)).
    apply wp_dec_step; [lia|lia|done|done| |intros; apply Hp; lia]. intros G.
    split; [intros; apply HF1; lia|]. change (mb (setw m ?b ?l)) with (mb m). fold L.
    set (v := le_val _).
    assert (HR : R (i + 1) = R i ++ [(default prev (last (R i)) + v) mod 2 ^ 32]).
    { unfold R. rewrite <- rs_snoc. f_equal. replace (Z.to_nat (i + 1)) with (S (Z.to_nat i)) by lia. apply numsk_S; lia. }
    assert (HRl : zlen (R i) = i) by (unfold R, zlen; rewrite running_sums_length; fold (zlen (numsk c (Z.to_nat i) D)); rewrite numsk_length; lia).
    assert (HSL : length (splice (s_off out) (R i) W) = length W) by (apply splice_length; lia).
    apply wp_bind, wp_setW; [by apply inb_setw| |intros; apply Hp; lia].
    intros Hii. split; [apply HF2; lia|].
    rewrite blk_setw by done. rewrite setw_setw. ints. cbn [wp]. split; [|lia].
    split; [lia|]. split; [lia|]. split; [lia|]. split; [lia|]. split; [lia|].
    rewrite HR, last_snoc. rewrite (Z.add_comm v). split; [done|]. rewrite <- HRl at 1. rewrite splice_app_l; [done|lia|].
    rewrite zlen_cons, zlen_nil; lia.
  - intros [[[i shift] total] p] m' (Hin & Hil & -> & -> & Htot & -> & ->) Hcond.
    apply Z.ltb_ge in Hcond. assert (i = n) as -> by lia. cbn [wp].
    apply HQ; [done|lia].
Qed.

Lemma nums8_nums4 c0 c1 d : nums8 c0 c1 d = nums4 c0 d ++ nums4 c1 (drop (sum_nat (ctrl_lens c0)) d).
Proof. unfold nums8, nums4. by rewrite cut_app, map_app. Qed.
Lemma last_app_ne {A} (x y : A) a b : b <> [] -> default x (last (a ++ b)) = default y (last b).
Proof.
  intros H. destruct (exists_last H) as (b' & z & ->). rewrite app_assoc, !last_snoc. done.
Qed.
Lemma last_at l : l <> [] -> forall x, default x (last l) = at_ l (zlen l - 1).
Proof.
  intros H x. destruct (exists_last H) as (b' & z & ->). rewrite last_snoc. cbn.
  assert (E : Some z = Some (at_ (b' ++ [z]) (zlen (b' ++ [z]) - 1))); [|by injection E].
  rewrite <- (lookup_at (b' ++ [z])) by (unfold zlen; rewrite app_length; cbn [length]; lia).
  rewrite lookup_app_r by (unfold zlen; rewrite app_length; cbn [length]; lia).
  replace (_ - _)%nat with 0%nat by (unfold zlen; rewrite app_length; cbn [length]; lia). done.
Qed.
(** Reading a position inside what has just been written. *)
Lemma at_splice o R l i : 0 <= o -> o + zlen R <= zlen l -> o <= i < o + zlen R -> at_ (splice o R l) i = at_ R (i - o).
Proof.
  intros. assert (E : Some (at_ (splice o R l) i) = Some (at_ R (i - o))); [|by injection E].
  rewrite <- (lookup_at (splice o R l)) by (rewrite splice_zlen; lia). rewrite <- (lookup_at R) by lia.
  rewrite splice_lookup by lia. repeat case_decide; try (unfold zlen in *; lia). f_equal. lia.
Qed.
Lemma inb_setw_ne m b l s : length l = length (blk (mw m) b) -> inb (mw m) s -> inb (mw (setw m b l)) s.
Proof. intros. by apply inb_setw. Qed.

Lemma u8_parts c0 c1 : is_byte c0 -> is_byte c1 -> u8 (Z.land (c0 + 256 * c1) 255) = c0 /\ u8 (Z.shiftr (c0 + 256 * c1) 8) = c1.
Proof.
  unfold is_byte. intros. rewrite (Z.land_ones _ 8) by lia. rewrite Z.shiftr_div_pow2 by lia.
  change (2 ^ 8) with 256. unfold u8. change (2 ^ 8) with 256. rewrite (Z.mul_comm 256), Z.div_add, Z.mod_add by lia.
  rewrite Z.div_small, Z.mod_mod, !Z.mod_small by lia. lia.
Qed.

(** decode.go:49-55 *)
Lemma wp_Get8uint32Scalar F pn inp out c0 c1 m (Q : unit -> mem -> Prop) :
  let sz := Z.of_nat (sum_nat (ctrl_lens c0 ++ ctrl_lens c1)) in
  is_byte c0 -> is_byte c1 -> inb (mb m) inp -> inb (mw m) out -> Forall is_byte (blk (mb m) (s_blk inp)) ->
  (forall j, s_off inp <= j < s_off inp + sz -> j < s_off inp + s_len inp -> F (ERdB (s_blk inp) j)) ->
  (forall j, s_off out <= j < s_off out + 8 -> j < s_off out + s_len out -> F (EWrW (s_blk out) j)) ->
  (sz <= s_len inp -> 8 <= s_len out ->
    Q tt (setw m (s_blk out) (splice (s_off out)
       (nums8 c0 c1 (drop (Z.to_nat (s_off inp)) (blk (mb m) (s_blk inp)))) (blk (mw m) (s_blk out))))) ->
  (s_len inp < sz \/ s_len out < 8 -> pn) ->
  wp F pn (Get8uint32Scalar inp out (c0 + 256 * c1)) m Q.
Proof.
  intros sz H0 H1 Hi Ho Hb HF1 HF2 HQ Hp. unfold Get8uint32Scalar.
  destruct (u8_parts c0 c1 H0 H1) as [-> ->]. rewrite ControlByteToSize_lens by done.
  assert (Hi' := Hi). destruct Hi as (Hi1 & Hi2 & Hi3). assert (Ho' := Ho). destruct Ho as (Ho1 & Ho2 & Ho3).
  rewrite nums8_nums4 in HQ. subst sz. rewrite sum_nat_app, Nat2Z.inj_add in *.
  rewrite drop_drop in HQ.
  pose proof (sum_ctrl_lens_range c0). pose proof (sum_ctrl_lens_range c1).
  set (L := blk (mb m) (s_blk inp)) in *. set (W := blk (mw m) (s_blk out)) in *.
  apply wp_bind, wp_Get4uint32Scalar; try done; try (intros; (apply HF1 || apply HF2 || apply Hp); lia).
  intros G1 G2. fold L W. set (N0 := nums4 c0 _) in *.
  assert (HN0 : zlen N0 = 4) by apply nums4_length.
  assert (HSL : length (splice (s_off out) N0 W) = length W) by (apply splice_length; lia).
  apply wp_bind, wp_slice_from; [|lia]. intros _.
  apply wp_bind, wp_slice_from; [|lia]. intros _.
  apply wp_Get4uint32Scalar; cbn [s_blk s_off s_len s_cap mb setw]; try done.
  - repeat split; cbn [s_blk s_off s_len s_cap]; fold L W; lia.
  - apply inb_setw; [done|]. repeat split; cbn [s_blk s_off s_len s_cap]; fold L W; lia.
  - intros; apply HF1; lia.
  - intros; apply HF2; lia.
  - intros G3 G4. fold L. rewrite blk_setw by done. rewrite setw_setw. rewrite <- HN0 at 1.
    rewrite splice_app_l; [|lia|].
    2:{ change (mb {| mb := mb m; mw := _ |}) with (mb m). rewrite nums4_length. fold W. lia. }
    replace (Z.to_nat (s_off inp + Z.of_nat (sum_nat (ctrl_lens c0)))) with (Z.to_nat (s_off inp) + sum_nat (ctrl_lens c0))%nat by lia.
    apply HQ; lia.
  - intros; apply Hp; lia.
Qed.

(** decode.go:142-148 *)
Lemma wp_Get8uint32DeltaScalar F pn inp out c0 c1 prev m (Q : unit -> mem -> Prop) :
  let sz := Z.of_nat (sum_nat (ctrl_lens c0 ++ ctrl_lens c1)) in
  is_byte c0 -> is_byte c1 -> inb (mb m) inp -> inb (mw m) out -> Forall is_byte (blk (mb m) (s_blk inp)) ->
  (forall j, s_off inp <= j < s_off inp + sz -> j < s_off inp + s_len inp -> F (ERdB (s_blk inp) j)) ->
  (forall j, s_off out <= j < s_off out + 8 -> j < s_off out + s_len out -> F (EWrW (s_blk out) j) /\ F (ERdW (s_blk out) j)) ->
  (sz <= s_len inp -> 8 <= s_len out ->
    Q tt (setw m (s_blk out) (splice (s_off out)
       (running_sums prev (nums8 c0 c1 (drop (Z.to_nat (s_off inp)) (blk (mb m) (s_blk inp))))) (blk (mw m) (s_blk out))))) ->
  (s_len inp < sz \/ s_len out < 8 -> pn) ->
  wp F pn (Get8uint32DeltaScalar inp out (c0 + 256 * c1) prev) m Q.
Proof.
  intros sz H0 H1 Hi Ho Hb HF1 HF2 HQ Hp. unfold Get8uint32DeltaScalar.
  destruct (u8_parts c0 c1 H0 H1) as [-> ->]. rewrite ControlByteToSize_lens by done.
  assert (Hi' := Hi). destruct Hi as (Hi1 & Hi2 & Hi3). assert (Ho' := Ho). destruct Ho as (Ho1 & Ho2 & Ho3).
  rewrite nums8_nums4, running_sums_app in HQ. subst sz. rewrite sum_nat_app, Nat2Z.inj_add in *.
  rewrite drop_drop in HQ.
  pose proof (sum_ctrl_lens_range c0). pose proof (sum_ctrl_lens_range c1).
  set (L := blk (mb m) (s_blk inp)) in *. set (W := blk (mw m) (s_blk out)) in *.
  apply wp_bind, wp_Get4uint32DeltaScalar; try done; try (intros; (apply HF1 || apply HF2 || apply Hp); lia).
  intros G1 G2. fold L W. set (N0 := running_sums prev (nums4 c0 _)) in *.
  assert (HN0 : zlen N0 = 4) by (unfold N0, zlen; rewrite running_sums_length; apply nums4_length).
  assert (HSL : length (splice (s_off out) N0 W) = length W) by (apply splice_length; lia).
  apply wp_bind, wp_slice_from; [|lia]. intros _.
  apply wp_bind, wp_slice_from; [|intros; apply Hp; lia]. intros _.
  apply wp_bind, wp_getW; [by apply inb_setw| |intros; apply Hp; lia]. intros _.
  split; [apply HF2; lia|]. rewrite blk_setw by done.
  rewrite at_splice by lia. replace (s_off out + 3 - s_off out) with (zlen N0 - 1) by lia.
  rewrite <- (last_at N0) with (x := prev) by (intros E; rewrite E in HN0; done).
  apply wp_Get4uint32DeltaScalar; cbn [s_blk s_off s_len s_cap mb setw]; try done.
  - repeat split; cbn [s_blk s_off s_len s_cap]; fold L W; lia.
  - apply inb_setw; [done|]. repeat split; cbn [s_blk s_off s_len s_cap]; fold L W; lia.
  - intros; apply HF1; lia.
  - intros; apply HF2; lia.
  - intros G3 G4. fold L. rewrite blk_setw by done. rewrite setw_setw. rewrite <- HN0 at 1.
    rewrite splice_app_l; [|lia|].
    2:{ rewrite zlen_running_sums, nums4_length. fold W. lia. }
    replace (Z.to_nat (s_off inp + Z.of_nat (sum_nat (ctrl_lens c0)))) with (Z.to_nat (s_off inp) + sum_nat (ctrl_lens c0))%nat by lia.
    apply HQ; lia.
  - intros; apply Hp; lia.
Qed.
