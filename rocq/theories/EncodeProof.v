(** * Rules for the scalar encoders *)
From stdpp Require Import prelude gmap list.
From Coq Require Import ZArith Lia.
From Verif Require Import Spec SpecLemmas GoSem Tables Shared Asm Wp Encode.
Local Open Scope Z_scope.
Implicit Types (F : event -> Prop) (pn : Prop).

Lemma zlen_enc1 x : zlen (enc1 x) = Z.of_nat (nbytes x).
Proof. unfold zlen. by rewrite enc1_length. Qed.
Lemma sum_nat_cons a l : sum_nat (a :: l) = (a + sum_nat l)%nat.
Proof. done. Qed.

Lemma LeadingZeros32_size num : is_u32 num ->
  max 1 (isub 4 (idiv (LeadingZeros32 num) 8)) = Z.of_nat (nbytes num).
Proof.
  unfold is_u32, LeadingZeros32, nbytes. intros H.
  destruct (Z.eqb_spec num 0) as [->|Hn]; [done|].
  assert (L : forall k, 0 <= k -> (num < 2 ^ k <-> Z.log2 num < k)).
  { intros k Hk. split; intros. - apply Z.log2_lt_pow2; lia. - apply Z.log2_lt_pow2; lia. }
  assert (0 <= Z.log2 num) by apply Z.log2_nonneg.
  assert (Z.log2 num < 32) by (apply L; lia).
  rewrite idiv_pos by lia.
  assert (R : forall q, 8 * q <= 31 - Z.log2 num < 8 * q + 8 -> (31 - Z.log2 num) / 8 = q).
  { intros q Hq. symmetry. apply (Z.div_unique _ 8 q (31 - Z.log2 num - 8 * q)); lia. }
  destruct (Z.ltb_spec num (2 ^ 8)) as [G1|G1].
  { apply L in G1; [|lia]. rewrite (R 3) by lia. done. }
  assert (~ Z.log2 num < 8) by (rewrite <- (L 8) by lia; lia).
  destruct (Z.ltb_spec num (2 ^ 16)) as [G2|G2].
  { apply L in G2; [|lia]. rewrite (R 2) by lia. done. }
  assert (~ Z.log2 num < 16) by (rewrite <- (L 16) by lia; lia).
  destruct (Z.ltb_spec num (2 ^ 24)) as [G3|G3].
  { apply L in G3; [|lia]. rewrite (R 1) by lia. done. }
  assert (~ Z.log2 num < 24) by (rewrite <- (L 24) by lia; lia).
  rewrite (R 0) by lia. done.
Qed.

Lemma splice_cons_r p x b l : 0 <= p -> p + 1 + zlen b <= zlen l ->
  splice p [x] (splice (p + 1) b l) = splice p (x :: b) l.
Proof.
  intros. change (p + 1) with (p + zlen [x]). rewrite splice_app_r; [done|done|].
  rewrite zlen_cons, zlen_nil. lia.
Qed.

Ltac zl := rewrite ?zlen_app, ?zlen_cons, ?zlen_nil, ?splice_zlen in *;
           rewrite ?zlen_app, ?zlen_cons, ?zlen_nil in *; try lia.

Lemma inb_setb m b l s : length l = length (blk (mb m) b) -> inb (mb m) s -> inb (mb (setb m b l)) s.
Proof.
  intros Hl (H1 & H2 & H3). repeat split; try lia. unfold setb. cbn [mb].
  destruct (decide (b = s_blk s)) as [->|].
  - rewrite blk_put_eq by done. unfold zlen in *. rewrite Hl. done.
  - rewrite blk_put_ne by done. done.
Qed.
Lemma inb_setw m b l s : length l = length (blk (mw m) b) -> inb (mw m) s -> inb (mw (setw m b l)) s.
Proof.
  intros Hl (H1 & H2 & H3). repeat split; try lia. unfold setw. cbn [mw].
  destruct (decide (b = s_blk s)) as [->|].
  - rewrite blk_put_eq by done. unfold zlen in *. rewrite Hl. done.
  - rewrite blk_put_ne by done. done.
Qed.

(** Writing bytes high to low, as encodeOne does. *)
Lemma wp_encodeOne F pn num out m (Q : Z -> mem -> Prop) :
  is_u32 num -> inb (mb m) out ->
  (forall j, s_off out <= j < s_off out + Z.of_nat (nbytes num) -> j < s_off out + s_len out -> F (EWrB (s_blk out) j)) ->
  (Z.of_nat (nbytes num) <= s_len out ->
     Q (Z.of_nat (nbytes num)) (setb m (s_blk out) (splice (s_off out) (enc1 num) (blk (mb m) (s_blk out))))) ->
  (s_len out < Z.of_nat (nbytes num) -> pn) ->
  wp F pn (encodeOne num out) m Q.
Proof.
  intros Hu Hin HF HQ Hp. unfold encodeOne. rewrite LeadingZeros32_size by done.
  pose proof (nbytes_range num) as Hr.
  assert (Hin' := Hin). destruct Hin as (Ho & Hl & Hc).
  set (b := s_blk out) in *. set (o := s_off out) in *. set (L := blk (mb m) b) in *.
  apply wp_bind.
  (* one store below an already written suffix *)
  assert (STEP : forall i v S (R : unit -> mem -> Prop),
            0 <= i -> zlen S = Z.of_nat (nbytes num) - 1 - i -> Z.of_nat (nbytes num) <= s_len out ->
            R tt (setb m b (splice (o + i) (v :: S) L)) ->
            wp F pn (setB out i v) (setb m b (splice (o + i + 1) S L)) R).
  { intros i v S R Hi HS Hn HR. pose proof (zlen_nonneg S).
    assert (Hsl : length (splice (o + i + 1) S L) = length (blk (mb m) b)) by (apply splice_length; subst L; lia).
    apply wp_setB; [by apply inb_setb| |lia].
    intros _. split; [apply HF; lia|].
    fold b o. rewrite blk_setb by done. rewrite setb_setb.
    rewrite splice_cons_r; [done| |]; subst L; lia. }
  assert (TOP : forall n, nbytes num = n -> s_len out < Z.of_nat n -> forall v (R : unit -> mem -> Prop), wp F pn (setB out (Z.of_nat n - 1) v) m R).
  { intros n Hn Hlt v R. apply wp_setB; [done|lia|]. intros _. apply Hp. lia. }
  assert (START : forall n, splice (o + n) [] L = L) by (intros; apply splice_nil).
  assert (E : forall k, 0 <= k -> u8 (Z.shiftr num k) = num / 2 ^ k mod 256).
  { intros. unfold u8. rewrite Z.shiftr_div_pow2 by lia. done. }
  unfold enc1 in HQ.
  assert (M0 : m = setb m b L) by (subst L; by rewrite setb_id).
  assert (Hdiv : forall k, num / 256 / 2 ^ k = num / 2 ^ (k + 8) \/ k < 0).
  { intros k. destruct (decide (k < 0)); [by right|left]. rewrite Z.div_div by lia.
    f_equal. rewrite Z.pow_add_r by lia. lia. }
  destruct (decide (s_len out < Z.of_nat (nbytes num))) as [Hs|Hs].
  - (* too short: the first store panics *)
    assert (Hn : nbytes num = 1%nat \/ nbytes num = 2%nat \/ nbytes num = 3%nat \/ nbytes num = 4%nat) by lia.
    destruct Hn as [Hn|[Hn|[Hn|Hn]]]; rewrite Hn in *; cbn [Z.of_nat Z.eqb];
      change (Z.of_nat 1) with 1; change (Z.of_nat 2) with 2; change (Z.of_nat 3) with 3; change (Z.of_nat 4) with 4;
      cbn [Z.eqb Pos.eqb]; first [exact (TOP _ eq_refl Hs _ _) | apply wp_bind; exact (TOP _ eq_refl Hs _ _)].
  - assert (Hs' : Z.of_nat (nbytes num) <= s_len out) by lia. clear Hs TOP Hp.
    specialize (HQ Hs').
    assert (Hn : nbytes num = 1%nat \/ nbytes num = 2%nat \/ nbytes num = 3%nat \/ nbytes num = 4%nat) by lia.
    assert (D1 : num / 256 / 256 = num / 2 ^ 16) by (rewrite Z.div_div by lia; done).
    assert (D2 : num / 256 / 256 / 256 = num / 2 ^ 24) by (rewrite !Z.div_div by lia; done).
    assert (A : forall i, o + i = o + (i - 1) + 1) by lia.
    destruct Hn as [Hn|[Hn|[Hn|Hn]]]; rewrite Hn in *;
      change (Z.of_nat 1) with 1 in *; change (Z.of_nat 2) with 2 in *; change (Z.of_nat 3) with 3 in *; change (Z.of_nat 4) with 4 in *;
      cbn [Z.eqb Pos.eqb]; cbn [le] in HQ; rewrite ?D2, ?D1 in HQ;
      rewrite ?(E 8), ?(E 16), ?(E 24) by lia; change (u8 num) with (num mod 256);
      change (2 ^ 8) with 256 in *.
    + rewrite M0. rewrite <- (START 1). replace (o + 1) with (o + 0 + 1) by lia.
      apply STEP; [lia|done|lia|]. rewrite Z.add_0_r. exact HQ.
    + apply wp_bind. rewrite M0. rewrite <- (START 2). replace (o + 2) with (o + 1 + 1) by lia.
      apply STEP; [lia|done|lia|]. replace (o + 1) with (o + 0 + 1) by lia.
      apply STEP; [lia|done|lia|]. rewrite Z.add_0_r. exact HQ.
    + apply wp_bind. rewrite M0. rewrite <- (START 3). replace (o + 3) with (o + 2 + 1) by lia.
      apply STEP; [lia|done|lia|]. apply wp_bind. replace (o + 2) with (o + 1 + 1) by lia.
      apply STEP; [lia|done|lia|]. replace (o + 1) with (o + 0 + 1) by lia.
      apply STEP; [lia|done|lia|]. rewrite Z.add_0_r. exact HQ.
    + apply wp_bind. rewrite M0. rewrite <- (START 4). replace (o + 4) with (o + 3 + 1) by lia.
      apply STEP; [lia|done|lia|]. apply wp_bind. replace (o + 3) with (o + 2 + 1) by lia.
      apply STEP; [lia|done|lia|]. apply wp_bind. replace (o + 2) with (o + 1 + 1) by lia.
      apply STEP; [lia|done|lia|]. replace (o + 1) with (o + 0 + 1) by lia.
      apply STEP; [lia|done|lia|]. rewrite Z.add_0_r. exact HQ.
Qed.

(** One more number after [D] has been written. *)
Lemma wp_enc_step F pn (D : list Z) x out t m (Q : Z -> mem -> Prop) :
  is_u32 x -> inb (mb m) out -> t = zlen D -> zlen D <= s_len out ->
  (forall j, s_off out + zlen D <= j < s_off out + zlen D + Z.of_nat (nbytes x) ->
     j < s_off out + s_len out -> F (EWrB (s_blk out) j)) ->
  (zlen D + Z.of_nat (nbytes x) <= s_len out ->
     Q (Z.of_nat (nbytes x))
       (setb m (s_blk out) (splice (s_off out) (D ++ enc1 x) (blk (mb m) (s_blk out))))) ->
  (s_len out < zlen D + Z.of_nat (nbytes x) -> pn) ->
  wp F pn (let! o := slice_from out t in encodeOne x o)
    (setb m (s_blk out) (splice (s_off out) D (blk (mb m) (s_blk out)))) Q.
Proof.
  intros Hu Hin -> HD HF HQ Hp. pose proof (zlen_nonneg D).
  assert (Hin' := Hin). destruct Hin as (Ho & Hl & Hc).
  assert (Hsl : length (splice (s_off out) D (blk (mb m) (s_blk out))) = length (blk (mb m) (s_blk out)))
    by (apply splice_length; lia).
  apply wp_bind. apply wp_slice_from; [|lia]. intros _.
  apply wp_encodeOne; cbn [s_blk s_off s_len s_cap]; [done| | |intros Hle|intros; apply Hp; lia].
  - apply inb_setb; [done|]. repeat split; cbn [s_blk s_off s_len s_cap]; try lia.
  - intros j ? ?. apply HF; lia.
  - rewrite blk_setb by done. rewrite setb_setb. rewrite splice_app_l; [|done|rewrite zlen_enc1; lia].
    apply HQ. lia.
Qed.

(** The common tail of Put4uint32Scalar and Put4uint32DeltaScalar. *)
Definition put4_tail (num0 num1 num2 num3 : Z) (out : slice) : prog Z :=
  let! len0 := encodeOne num0 out in
  let! o1 := slice_from out len0 in
  let! len1 := encodeOne num1 o1 in
  let! o2 := slice_from out (iadd len0 len1) in
  let! len2 := encodeOne num2 o2 in
  let! o3 := slice_from out (iadd (iadd len0 len1) len2) in
  let! len3 := encodeOne num3 o3 in
  Ret (u8 (Z.lor (Z.lor (Z.lor (isub len0 1)
                               (i64 (Z.shiftl (isub len1 1) 2)))
                        (i64 (Z.shiftl (isub len2 1) 4)))
                 (i64 (Z.shiftl (isub len3 1) 6)))).

Lemma ctrl_arith a b c d :
  u8 (Z.lor (Z.lor (Z.lor (Z.of_nat (nbytes a) - 1)
                          (i64 (Z.shiftl (Z.of_nat (nbytes b) - 1) 2)))
                   (i64 (Z.shiftl (Z.of_nat (nbytes c) - 1) 4)))
            (i64 (Z.shiftl (Z.of_nat (nbytes d) - 1) 6))) = ctrl_of [a; b; c; d].
Proof.
  cbn [ctrl_of].
  assert (H : forall x, nbytes x = 1%nat \/ nbytes x = 2%nat \/ nbytes x = 3%nat \/ nbytes x = 4%nat)
    by (intros x; pose proof (nbytes_range x); lia).
  destruct (H a) as [->|[->|[->| ->]]], (H b) as [->|[->|[->| ->]]],
    (H c) as [->|[->|[->| ->]]], (H d) as [->|[->|[->| ->]]]; vm_compute; reflexivity.
Qed.

Lemma bind_assoc {A B C} (p : prog A) (f : A -> prog B) (g : B -> prog C) F pn m Q :
  wp F pn (bind (bind p f) g) m Q -> wp F pn (bind p (fun x => bind (f x) g)) m Q.
Proof.
  revert m. induction p as [a| | | | |b i k IH|b i v k IH|b i k IH|b i v k IH|b n k IH]; intros m Hw; cbn in *; auto.
  - destruct Hw as (? & v & ? & ?). split; [auto|]. exists v. auto.
  - destruct Hw as (? & v' & ? & ?). split; [auto|]. exists v'. auto.
  - destruct Hw as (? & v & ? & ?). split; [auto|]. exists v. auto.
  - destruct Hw as (? & v' & ? & ?). split; [auto|]. exists v'. auto.
  - destruct Hw as (? & ? & ?). auto.
Qed.

Lemma zlen_enc_data_cons x xs : zlen (enc_data (x :: xs)) = Z.of_nat (nbytes x) + zlen (enc_data xs).
Proof. cbn [enc_data]. rewrite zlen_app, zlen_enc1. done. Qed.

Lemma wp_put4_tail F pn a b c d out m (Q : Z -> mem -> Prop) :
  Forall is_u32 [a; b; c; d] -> inb (mb m) out ->
  (forall j, s_off out <= j < s_off out + zlen (enc_data [a; b; c; d]) -> j < s_off out + s_len out ->
     F (EWrB (s_blk out) j)) ->
  (zlen (enc_data [a; b; c; d]) <= s_len out ->
     Q (ctrl_of [a; b; c; d])
       (setb m (s_blk out) (splice (s_off out) (enc_data [a; b; c; d]) (blk (mb m) (s_blk out))))) ->
  (s_len out < zlen (enc_data [a; b; c; d]) -> pn) ->
  wp F pn (put4_tail a b c d out) m Q.
Proof.
  intros Hu Hin HF HQ Hp.
  apply Forall_cons_1 in Hu as [Ha Hu]. apply Forall_cons_1 in Hu as [Hb Hu].
  apply Forall_cons_1 in Hu as [Hc Hu]. apply Forall_cons_1 in Hu as [Hd _].
  rewrite !zlen_enc_data_cons in *. change (zlen (enc_data [])) with 0 in *.
  pose proof (nbytes_range a). pose proof (nbytes_range b). pose proof (nbytes_range c). pose proof (nbytes_range d).
  unfold put4_tail. apply wp_bind. apply wp_encodeOne; [done|done|intros; apply HF; lia| |intros; apply Hp; lia].
  intros B1. ints. apply bind_assoc. apply wp_bind.
  apply wp_enc_step; [done|done|by rewrite zlen_enc1|rewrite zlen_enc1; lia| | |];
    rewrite ?zlen_enc1; [intros; apply HF; lia| |intros; apply Hp; lia].
  intros B2. ints. apply bind_assoc. apply wp_bind.
  assert (E2 : zlen (enc1 a ++ enc1 b) = Z.of_nat (nbytes a) + Z.of_nat (nbytes b)) by (rewrite zlen_app, !zlen_enc1; done).
  apply wp_enc_step; [done|done|done|lia| | |]; rewrite ?E2; [intros; apply HF; lia| |intros; apply Hp; lia].
  intros B3. ints. apply bind_assoc. apply wp_bind.
  assert (E3 : zlen ((enc1 a ++ enc1 b) ++ enc1 c) = Z.of_nat (nbytes a) + Z.of_nat (nbytes b) + Z.of_nat (nbytes c)) by (rewrite !zlen_app, !zlen_enc1; done).
  apply wp_enc_step; [done|done|done|lia| | |]; rewrite ?E3; [intros; apply HF; lia| |intros; apply Hp; lia].
  intros B4. cbn [wp]. ints. rewrite ctrl_arith. cbn [enc_data] in HQ. rewrite app_nil_r, !app_assoc in HQ. apply HQ. lia.
Qed.

(** Elements of a four-element window. *)
Lemma sub4 o l : 0 <= o -> o + 4 <= zlen l ->
  sub o 4 l = [at_ l (o + 0); at_ l (o + 1); at_ l (o + 2); at_ l (o + 3)].
Proof.
  intros. apply list_eq. intros j.
  destruct j as [|[|[|[|j]]]];
    try (rewrite sub_lookup by lia; cbn [lookup list_lookup];
         match goal with |- _ = Some (at_ _ ?z) => rewrite <- (lookup_at l z) by lia; f_equal; lia end).
  rewrite lookup_ge_None_2; [done|]. unfold sub. rewrite take_length. lia.
Qed.
Lemma Forall_sub (P : Z -> Prop) p n l : Forall P l -> Forall P (sub p n l).
Proof. intros. unfold sub. apply Forall_take. by apply Forall_drop. Qed.

(** encode.go:150-165 *)
Lemma wp_Put4uint32Scalar F pn inp out m (Q : Z -> mem -> Prop) :
  let xs := sub (s_off inp) 4 (blk (mw m) (s_blk inp)) in
  inb (mw m) inp -> inb (mb m) out -> Forall is_u32 (blk (mw m) (s_blk inp)) ->
  (4 <= s_len inp ->
    (forall j, s_off inp <= j < s_off inp + 4 -> F (ERdW (s_blk inp) j)) /\
    (forall j, s_off out <= j < s_off out + zlen (enc_data xs) -> j < s_off out + s_len out -> F (EWrB (s_blk out) j))) ->
  (4 <= s_len inp -> zlen (enc_data xs) <= s_len out ->
     Q (ctrl_of xs) (setb m (s_blk out) (splice (s_off out) (enc_data xs) (blk (mb m) (s_blk out))))) ->
  (s_len inp < 4 \/ s_len out < zlen (enc_data xs) -> pn) ->
  wp F pn (Put4uint32Scalar inp out) m Q.
Proof.
  intros xs Hi Ho Hu HF HQ Hp. unfold Put4uint32Scalar.
  apply wp_bind. apply wp_check_idx; [|intros; apply Hp; lia]. intros H4. destruct HF as [HF1 HF2]; [lia|].
  assert (Hi' := Hi). destruct Hi as (? & ? & ?).
  apply wp_bind, wp_getW; [done| |lia]. intros _. split; [apply HF1; lia|].
  apply wp_bind, wp_getW; [done| |lia]. intros _. split; [apply HF1; lia|].
  apply wp_bind, wp_getW; [done| |lia]. intros _. split; [apply HF1; lia|].
  apply wp_bind, wp_getW; [done| |lia]. intros _. split; [apply HF1; lia|].
  assert (Hxs : Forall is_u32 xs) by (by apply Forall_sub).
  subst xs. rewrite sub4 in * by lia.
  apply (wp_put4_tail F pn); [done|done|done|intros; apply HQ; [lia|done]|intros; apply Hp; by right].
Qed.

(** encode.go:196-211 *)
Lemma wp_Put4uint32DeltaScalar F pn inp out prev m (Q : Z -> mem -> Prop) :
  let xs := deltas prev (sub (s_off inp) 4 (blk (mw m) (s_blk inp))) in
  inb (mw m) inp -> inb (mb m) out ->
  (4 <= s_len inp ->
    (forall j, s_off inp <= j < s_off inp + 4 -> F (ERdW (s_blk inp) j)) /\
    (forall j, s_off out <= j < s_off out + zlen (enc_data xs) -> j < s_off out + s_len out -> F (EWrB (s_blk out) j))) ->
  (4 <= s_len inp -> zlen (enc_data xs) <= s_len out ->
     Q (ctrl_of xs) (setb m (s_blk out) (splice (s_off out) (enc_data xs) (blk (mb m) (s_blk out))))) ->
  (s_len inp < 4 \/ s_len out < zlen (enc_data xs) -> pn) ->
  wp F pn (Put4uint32DeltaScalar inp out prev) m Q.
Proof.
  intros xs Hi Ho HF HQ Hp. unfold Put4uint32DeltaScalar.
  apply wp_bind. apply wp_check_idx; [|intros; apply Hp; lia]. intros H4. destruct HF as [HF1 HF2]; [lia|].
  assert (Hi' := Hi). destruct Hi as (? & ? & ?).
  do 7 (apply wp_bind, wp_getW; [done| |lia]; intros _; split; [apply HF1; lia|]).
  assert (Hxs : Forall is_u32 xs) by apply deltas_u32.
  subst xs. rewrite sub4 in * by lia. cbn [deltas] in *.
  apply (wp_put4_tail F pn); [done|done|done|intros; apply HQ; [lia|done]|intros; apply Hp; by right].
Qed.
