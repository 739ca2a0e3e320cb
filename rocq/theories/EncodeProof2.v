(** * Rules for PutUint32Scalar, Put8uint32Scalar and their delta variants *)
From stdpp Require Import prelude gmap list.
From Coq Require Import ZArith Lia.
From Verif Require Import Spec SpecLemmas GoSem Tables Shared Asm Wp Encode TableProof EncodeProof.
Local Open Scope Z_scope.
Implicit Types (F : event -> Prop) (pn : Prop).

Lemma ctrl_of_app a b : ctrl_of (a ++ b) = ctrl_of a + 4 ^ Z.of_nat (length a) * ctrl_of b.
Proof.
  induction a as [|x a IH]; cbn [app ctrl_of length]; [lia|].
  rewrite IH, Nat2Z.inj_succ, Z.pow_succ_r by lia. lia.
Qed.

(** One loop step on the control byte. *)
Lemma ctrl_step xs x : (length xs < 4)%nat ->
  Z.lor (ctrl_of xs) (u8 (Z.shiftl (u8 (Z.of_nat (nbytes x) - 1)) (2 * zlen xs))) = ctrl_of (xs ++ [x]).
Proof.
  intros H. rewrite ctrl_of_app. cbn [ctrl_of]. rewrite Z.mul_0_r, Z.add_0_r.
  pose proof (ctrl_of_range xs) as Hr. pose proof (nbytes_range x).
  rewrite (u8_small (Z.of_nat _ - 1)) by lia.
  assert (E : 4 ^ Z.of_nat (length xs) = 2 ^ (2 * zlen xs)).
  { unfold zlen. rewrite Z.pow_mul_r by lia. done. }
  rewrite E in *. clear E.
  assert (P : 0 < 2 ^ (2 * zlen xs) <= 2 ^ 6).
  { split; [apply Z.pow_pos_nonneg; unfold zlen; lia|]. apply Z.pow_le_mono_r; unfold zlen; lia. }
  rewrite u8_small.
  - rewrite lor_shift by (unfold zlen in *; lia). lia.
  - rewrite Z.shiftl_mul_pow2 by (unfold zlen; lia). change (2 ^ 6) with 64 in P. nia.
Qed.

Lemma sub_snoc o n l : 0 <= o -> 0 <= n -> o + n < zlen l -> sub o (n + 1) l = sub o n l ++ [at_ l (o + n)].
Proof.
  intros. rewrite sub_app by lia. f_equal. unfold sub. change (Z.to_nat 1) with 1%nat.
  rewrite (drop_S _ _ _ (lookup_at l (o + n) ltac:(lia))). done.
Qed.
Lemma sub_0 o l : sub o 0 l = [].
Proof. done. Qed.
Lemma sub_prefix o n k l : 0 <= o -> 0 <= n <= k -> exists r, sub o k l = sub o n l ++ r.
Proof. intros. exists (sub (o + n) (k - n) l). rewrite <- sub_app by lia. f_equal. lia. Qed.
Lemma sub_zlen_le o n l : 0 <= n -> zlen (sub o n l) <= n.
Proof. intros. unfold zlen, sub. rewrite take_length. lia. Qed.

Lemma zlen_enc_data_app a b : zlen (enc_data (a ++ b)) = zlen (enc_data a) + zlen (enc_data b).
Proof. by rewrite enc_data_app, zlen_app. Qed.
Lemma zlen_enc_data_one x : zlen (enc_data [x]) = Z.of_nat (nbytes x).
Proof. cbn [enc_data]. rewrite app_nil_r. apply zlen_enc1. Qed.
Lemma enc_data_one x : enc_data [x] = enc1 x.
Proof. cbn [enc_data]. by rewrite app_nil_r. Qed.
Lemma enc_data_zlen_bounds xs : zlen xs <= zlen (enc_data xs) <= 4 * zlen xs.
Proof. pose proof (enc_data_bounds xs). unfold zlen. lia. Qed.

Definition clip (count : Z) : Z := Z.max 0 (Z.min count 4).

(** Two-stage version of wp_enc_step matching [let! o := slice_from ..; let! size := encodeOne .. in k]. *)
Lemma wp_enc_step_k {B} F pn (D : list Z) x out t m (k : Z -> prog B) (Q : B -> mem -> Prop) :
  is_u32 x -> inb (mb m) out -> t = zlen D -> zlen D <= s_len out ->
  (forall j, s_off out + zlen D <= j < s_off out + zlen D + Z.of_nat (nbytes x) ->
     j < s_off out + s_len out -> F (EWrB (s_blk out) j)) ->
  (zlen D + Z.of_nat (nbytes x) <= s_len out ->
     wp F pn (k (Z.of_nat (nbytes x)))
       (setb m (s_blk out) (splice (s_off out) (D ++ enc1 x) (blk (mb m) (s_blk out)))) Q) ->
  (s_len out < zlen D + Z.of_nat (nbytes x) -> pn) ->
  wp F pn (let! o := slice_from out t in let! size := encodeOne x o in k size)
    (setb m (s_blk out) (splice (s_off out) D (blk (mb m) (s_blk out)))) Q.
Proof. intros. apply bind_assoc. apply wp_bind. by apply wp_enc_step. Qed.

(** encode.go:54-76 *)
Lemma wp_PutUint32Scalar F pn inp out count m (Q : Z -> mem -> Prop) :
  let n := clip count in
  let xs := sub (s_off inp) n (blk (mw m) (s_blk inp)) in
  inb (mw m) inp -> inb (mb m) out -> Forall is_u32 (blk (mw m) (s_blk inp)) ->
  (forall j, s_off inp <= j < s_off inp + n -> j < s_off inp + s_len inp -> F (ERdW (s_blk inp) j)) ->
  (forall j, s_off out <= j < s_off out + zlen (enc_data xs) -> j < s_off out + s_len out -> F (EWrB (s_blk out) j)) ->
  (n <= s_len inp -> zlen (enc_data xs) <= s_len out ->
     Q (ctrl_of xs) (setb m (s_blk out) (splice (s_off out) (enc_data xs) (blk (mb m) (s_blk out))))) ->
  (s_len inp < n \/ s_len out < zlen (enc_data xs) -> pn) ->
  wp F pn (PutUint32Scalar inp out count) m Q.
Proof.
  intros n xs Hi Ho Hu HF1 HF2 HQ Hp.
  assert (Hi' := Hi). destruct Hi as (Hi1 & Hi2 & Hi3).
  assert (Ho' := Ho). destruct Ho as (Ho1 & Ho2 & Ho3).
  unfold PutUint32Scalar.
  set (W := blk (mw m) (s_blk inp)) in *. set (L := blk (mb m) (s_blk out)) in *.
  destruct (Z.eqb_spec count 0) as [->|Hc0].
  { cbn. change (ctrl_of xs) with 0 in HQ. change (enc_data xs) with (@nil Z) in HQ.
    rewrite splice_nil in HQ. unfold L in HQ. rewrite setb_id in HQ. apply HQ; [change n with 0; lia|change (zlen []) with 0; lia]. }
  set (cnt := if 4 <? count then 4 else count).
  assert (Hn : n = Z.max 0 cnt) by (subst n cnt; unfold clip; destruct (Z.ltb_spec 4 count); lia).
  assert (Hn4 : 0 <= n <= 4) by (subst n; unfold clip; lia).
  apply wp_bind.
  apply (wp_while _ _ (fun '(i, ctrl, shift, total) m' =>
      0 <= i <= n /\ i <= s_len inp /\ shift = 2 * i /\
      let D := sub (s_off inp) i W in
      ctrl = ctrl_of D /\ total = zlen (enc_data D) /\ total <= s_len out /\
      m' = setb m (s_blk out) (splice (s_off out) (enc_data D) L))
    (fun '(i, _, _, _) => n - i)).
  - rewrite !sub_0. cbn [enc_data ctrl_of]. change (zlen (@nil Z)) with 0. rewrite splice_nil. unfold L. rewrite setb_id.
    repeat split; lia.
  - lia.
  - lia.
  - intros [[[i ctrl] shift] total] m' (Hin & Hil & -> & -> & -> & Htot & ->) Hcond _.
    apply Z.ltb_lt in Hcond. assert (i < n) by lia.
    set (D := sub (s_off inp) i W) in *.
    assert (HD4 : zlen D <= i) by (apply sub_zlen_le; lia).
    pose proof (enc_data_zlen_bounds D).
    apply wp_bind, wp_getW; [done| |intros; apply Hp; lia].
    intros Hii. fold W. split; [apply HF1; lia|].
    change (mw (setb m (s_blk out) _)) with (mw m). fold W.
    set (x := at_ W (s_off inp + i)).
    assert (Hx : sub (s_off inp) (i + 1) W = D ++ [x]) by (apply sub_snoc; subst W; lia).
    destruct (sub_prefix (s_off inp) (i + 1) n W) as [r Hr]; [lia|lia|].
    assert (Hxs : zlen (enc_data xs) = zlen (enc_data D) + Z.of_nat (nbytes x) + zlen (enc_data r)).
    { unfold xs. rewrite Hr, Hx, !zlen_enc_data_app, zlen_enc_data_one. lia. }
    pose proof (zlen_nonneg (enc_data r)). pose proof (nbytes_range x).
    assert (HzD : zlen D = i) by (apply sub_zlen; subst W; lia).
    apply wp_enc_step_k; [|done|done|done|intros; apply HF2; lia| |intros; apply Hp; lia].
    { assert (HF : Forall is_u32 (D ++ [x])) by (rewrite <- Hx; by apply Forall_sub).
      apply Forall_app in HF as [_ HF]. by apply Forall_cons_1 in HF as [? _]. }
    intros Hfit. ints. cbn [wp]. rewrite Hx. split; [|lia].
    split; [lia|]. split; [lia|]. split; [lia|]. cbv zeta.
    split; [rewrite <- HzD at 1; apply ctrl_step; unfold zlen in HzD; lia|].
    split; [by rewrite zlen_enc_data_app, zlen_enc_data_one|].
    split; [lia|]. rewrite enc_data_app, enc_data_one. done.
  - intros [[[i ctrl] shift] total] m' (Hin & Hil & -> & -> & -> & Htot & ->) Hcond.
    apply Z.ltb_ge in Hcond. assert (i = n) as -> by lia. cbn [wp].
    apply HQ; [lia|done].
Qed.

(** deltas of a growing window *)
Lemma deltas_snoc p xs x : deltas p (xs ++ [x]) = deltas p xs ++ [(x - default p (last xs)) mod 2 ^ 32].
Proof. by rewrite deltas_app. Qed.

(** encode.go:83-106 *)
Lemma wp_PutUint32DeltaScalar F pn inp out count prev m (Q : Z -> mem -> Prop) :
  let n := clip count in
  let xs := deltas prev (sub (s_off inp) n (blk (mw m) (s_blk inp))) in
  inb (mw m) inp -> inb (mb m) out ->
  (forall j, s_off inp <= j < s_off inp + n -> j < s_off inp + s_len inp -> F (ERdW (s_blk inp) j)) ->
  (forall j, s_off out <= j < s_off out + zlen (enc_data xs) -> j < s_off out + s_len out -> F (EWrB (s_blk out) j)) ->
  (n <= s_len inp -> zlen (enc_data xs) <= s_len out ->
     Q (ctrl_of xs) (setb m (s_blk out) (splice (s_off out) (enc_data xs) (blk (mb m) (s_blk out))))) ->
  (s_len inp < n \/ s_len out < zlen (enc_data xs) -> pn) ->
  wp F pn (PutUint32DeltaScalar inp out count prev) m Q.
Proof.
  intros n xs Hi Ho HF1 HF2 HQ Hp.
  assert (Hi' := Hi). destruct Hi as (Hi1 & Hi2 & Hi3).
  assert (Ho' := Ho). destruct Ho as (Ho1 & Ho2 & Ho3).
  unfold PutUint32DeltaScalar.
  set (W := blk (mw m) (s_blk inp)) in *. set (L := blk (mb m) (s_blk out)) in *.
  destruct (Z.eqb_spec count 0) as [->|Hc0].
  { cbn. change (ctrl_of xs) with 0 in HQ. change (enc_data xs) with (@nil Z) in HQ.
    rewrite splice_nil in HQ. unfold L in HQ. rewrite setb_id in HQ. apply HQ; [change n with 0; lia|change (zlen []) with 0; lia]. }
  set (cnt := if 4 <? count then 4 else count).
  assert (Hn : n = Z.max 0 cnt) by (subst n cnt; unfold clip; destruct (Z.ltb_spec 4 count); lia).
  assert (Hn4 : 0 <= n <= 4) by (subst n; unfold clip; lia).
  apply wp_bind.
  apply (wp_while _ _ (fun '(i, ctrl, shift, total, pv) m' =>
      0 <= i <= n /\ i <= s_len inp /\ shift = 2 * i /\
      let D := deltas prev (sub (s_off inp) i W) in
      ctrl = ctrl_of D /\ total = zlen (enc_data D) /\ total <= s_len out /\
      pv = default prev (last (sub (s_off inp) i W)) /\
      m' = setb m (s_blk out) (splice (s_off out) (enc_data D) L))
    (fun '(i, _, _, _, _) => n - i)).
  - rewrite !sub_0. cbn [enc_data ctrl_of deltas]. change (zlen (@nil Z)) with 0. rewrite splice_nil. unfold L. rewrite setb_id.
    repeat split; lia.
  - lia.
  - lia.
  - intros [[[[i ctrl] shift] total] pv] m' (Hin & Hil & -> & -> & -> & Htot & -> & ->) Hcond _.
    apply Z.ltb_lt in Hcond. assert (i < n) by lia.
    set (D := deltas prev (sub (s_off inp) i W)) in *.
    assert (HzD : zlen D = i).
    { unfold D, zlen. rewrite deltas_length. apply sub_zlen; subst W; lia. }
    pose proof (enc_data_zlen_bounds D).
    apply wp_bind, wp_getW; [done| |intros; apply Hp; lia].
    intros Hii. fold W. split; [apply HF1; lia|].
    change (mw (setb m (s_blk out) _)) with (mw m). fold W.
    set (x := at_ W (s_off inp + i)).
    set (d := u32 (x - default prev (last (sub (s_off inp) i W)))).
    assert (Hx' : sub (s_off inp) (i + 1) W = sub (s_off inp) i W ++ [x]) by (apply sub_snoc; subst W; lia).
    assert (Hx : deltas prev (sub (s_off inp) (i + 1) W) = D ++ [d]) by (rewrite Hx'; apply deltas_snoc).
    destruct (sub_prefix (s_off inp) (i + 1) n W) as [r Hr]; [lia|lia|].
    assert (exists r', xs = D ++ [d] ++ r') as [r' Hr'].
    { unfold xs. rewrite Hr, deltas_app, Hx. eexists. by rewrite <- app_assoc. }
    assert (Hxs : zlen (enc_data xs) = zlen (enc_data D) + Z.of_nat (nbytes d) + zlen (enc_data r')).
    { rewrite Hr', !zlen_enc_data_app, zlen_enc_data_one. lia. }
    pose proof (zlen_nonneg (enc_data r')). pose proof (nbytes_range d).
    apply wp_enc_step_k; [|done|done|done|intros; apply HF2; lia| |intros; apply Hp; lia].
    { unfold d, u32, is_u32. apply Z.mod_pos_bound. lia. }
    intros Hfit. ints.
    apply wp_bind, wp_getW; [done| |lia]. intros _. split; [apply HF1; lia|].
    change (mw (setb m (s_blk out) _)) with (mw m). fold W. fold x.
    cbn [wp]. rewrite Hx, Hx'. split; [|lia].
    split; [lia|]. split; [lia|]. split; [lia|]. cbv zeta.
    split; [rewrite <- HzD at 1; apply ctrl_step; unfold zlen in HzD; lia|].
    split; [by rewrite zlen_enc_data_app, zlen_enc_data_one|].
    split; [lia|]. split; [by rewrite last_snoc|]. rewrite enc_data_app, enc_data_one. done.
  - intros [[[[i ctrl] shift] total] pv] m' (Hin & Hil & -> & -> & -> & Htot & -> & ->) Hcond.
    apply Z.ltb_ge in Hcond. assert (i = n) as -> by lia. cbn [wp].
    apply HQ; [lia|done].
Qed.

(** 16-bit control of two groups. *)
Definition ctrl16_of (xs : list Z) : Z := ctrl_of (take 4 xs) + 256 * ctrl_of (drop 4 xs).

Lemma sub_length_exact o n l : 0 <= o -> 0 <= n -> o + n <= zlen l -> length (sub o n l) = Z.to_nat n.
Proof. intros. pose proof (sub_zlen o n l). unfold zlen in *. lia. Qed.

(** encode.go:114-121 *)
Lemma wp_Put8uint32Scalar F pn inp out m (Q : Z -> mem -> Prop) :
  let xs := sub (s_off inp) 8 (blk (mw m) (s_blk inp)) in
  inb (mw m) inp -> inb (mb m) out -> Forall is_u32 (blk (mw m) (s_blk inp)) ->
  (forall j, s_off inp <= j < s_off inp + 8 -> j < s_off inp + s_len inp -> F (ERdW (s_blk inp) j)) ->
  (forall j, s_off out <= j < s_off out + zlen (enc_data xs) -> j < s_off out + s_len out -> F (EWrB (s_blk out) j)) ->
  (8 <= s_len inp -> zlen (enc_data xs) <= s_len out ->
     Q (ctrl16_of xs) (setb m (s_blk out) (splice (s_off out) (enc_data xs) (blk (mb m) (s_blk out))))) ->
  (s_len inp < 8 \/ s_len out < zlen (enc_data xs) -> pn) ->
  wp F pn (Put8uint32Scalar inp out) m Q.
Proof.
  intros xs Hi Ho Hu HF1 HF2 HQ Hp.
  assert (Hi' := Hi). destruct Hi as (Hi1 & Hi2 & Hi3).
  assert (Ho' := Ho). destruct Ho as (Ho1 & Ho2 & Ho3).
  unfold Put8uint32Scalar.
  set (W := blk (mw m) (s_blk inp)) in *. set (L := blk (mb m) (s_blk out)) in *.
  set (A := sub (s_off inp) 4 W). set (B := sub (s_off inp + 4) 4 W).
  assert (Exs : xs = A ++ B) by (unfold xs, A, B; rewrite <- sub_app by lia; done).
  assert (Ez : zlen (enc_data xs) = zlen (enc_data A) + zlen (enc_data B)) by (rewrite Exs; apply zlen_enc_data_app).
  pose proof (zlen_nonneg (enc_data A)). pose proof (zlen_nonneg (enc_data B)).
  apply wp_bind, wp_Put4uint32Scalar; [done|done|done| | |fold W A; intros; apply Hp; lia].
  { fold W A. intros. split; intros; [apply HF1; lia|]. apply HF2; lia. }
  fold W A L. intros H4 HA.
  assert (HlA : length A = 4%nat) by (apply sub_length_exact; subst W; lia).
  assert (Hsl : length (splice (s_off out) (enc_data A) L) = length L) by (apply splice_length; subst L; lia).
  cbv zeta. rewrite ControlByteToSize_ctrl_of by done.
  apply wp_bind, wp_slice_from; [|intros; exfalso; lia]. intros _.
  apply wp_bind, wp_slice_from; [|intros; exfalso; lia]. intros _.
  set (m1 := setb m (s_blk out) (splice (s_off out) (enc_data A) L)).
  apply wp_bind, wp_Put4uint32Scalar; cbn [s_blk s_off s_len s_cap]; change (mw m1) with (mw m); fold W B.
  - repeat split; cbn [s_blk s_off s_len s_cap]; fold W; lia.
  - apply inb_setb; [done|]. repeat split; cbn [s_blk s_off s_len s_cap]; fold L; lia.
  - done.
  - intros. split; intros; [apply HF1; lia|apply HF2; lia].
  - intros H8 HB. unfold m1. rewrite blk_setb by done. rewrite setb_setb.
    rewrite splice_app_l; [|done|subst L; lia]. rewrite <- enc_data_app, <- Exs.
    assert (HlB : length B = 4%nat) by (apply sub_length_exact; subst W; lia).
    assert (BA : is_byte (ctrl_of A)) by (apply ctrl_of_byte; lia).
    assert (BB : is_byte (ctrl_of B)) by (apply ctrl_of_byte; lia).
    cbn [wp]. rewrite Z.lor_0_l. unfold is_byte in *. rewrite (u16_small (ctrl_of A)), (u16_small (ctrl_of B)) by lia.
    rewrite ctrl16_val by done.
    replace (ctrl_of A + 256 * ctrl_of B) with (ctrl16_of xs).
    + apply HQ; lia.
    + unfold ctrl16_of. rewrite Exs. rewrite <- HlA at 1. rewrite take_app. rewrite <- HlA. rewrite drop_app. done.
  - intros. apply Hp. lia.
Qed.

Lemma deltas_sub8 p o l : 0 <= o -> o + 8 <= zlen l ->
  deltas p (sub o 8 l) = deltas p (sub o 4 l) ++ deltas (at_ l (o + 3)) (sub (o + 4) 4 l).
Proof.
  intros. change 8 with (4 + 4). rewrite sub_app by lia. rewrite deltas_app.
  do 2 f_equal. rewrite sub4 by lia. done.
Qed.

(** encode.go:177-184 *)
Lemma wp_Put8uint32DeltaScalar F pn inp out prev m (Q : Z -> mem -> Prop) :
  let xs := deltas prev (sub (s_off inp) 8 (blk (mw m) (s_blk inp))) in
  inb (mw m) inp -> inb (mb m) out ->
  (forall j, s_off inp <= j < s_off inp + 8 -> j < s_off inp + s_len inp -> F (ERdW (s_blk inp) j)) ->
  (forall j, s_off out <= j < s_off out + zlen (enc_data xs) -> j < s_off out + s_len out -> F (EWrB (s_blk out) j)) ->
  (8 <= s_len inp -> zlen (enc_data xs) <= s_len out ->
     Q (ctrl16_of xs) (setb m (s_blk out) (splice (s_off out) (enc_data xs) (blk (mb m) (s_blk out))))) ->
  (s_len inp < 8 \/ s_len out < zlen (enc_data xs) -> pn) ->
  wp F pn (Put8uint32DeltaScalar inp out prev) m Q.
Proof.
  intros xs Hi Ho HF1 HF2 HQ Hp.
  assert (Hi' := Hi). destruct Hi as (Hi1 & Hi2 & Hi3).
  assert (Ho' := Ho). destruct Ho as (Ho1 & Ho2 & Ho3).
  unfold Put8uint32DeltaScalar.
  set (W := blk (mw m) (s_blk inp)) in *. set (L := blk (mb m) (s_blk out)) in *.
  set (A := deltas prev (sub (s_off inp) 4 W)).
  assert (exists R, xs = A ++ R) as [R HR].
  { unfold xs. change 8 with (4 + 4). rewrite sub_app by lia. rewrite deltas_app. by eexists. }
  assert (Ez' : zlen (enc_data xs) = zlen (enc_data A) + zlen (enc_data R)) by (rewrite HR; apply zlen_enc_data_app).
  pose proof (zlen_nonneg (enc_data A)). pose proof (zlen_nonneg (enc_data R)).
  apply wp_bind, wp_Put4uint32DeltaScalar; [done|done| | |fold W A; intros; apply Hp; lia].
  { fold W A. intros. split; intros; [apply HF1; lia|]. apply HF2; lia. }
  fold W A L. intros H4 HA.
  assert (HlA : length A = 4%nat).
  { unfold A. rewrite deltas_length. apply sub_length_exact; subst W; lia. }
  assert (Hsl : length (splice (s_off out) (enc_data A) L) = length L) by (apply splice_length; subst L; lia).
  cbv zeta. rewrite ControlByteToSize_ctrl_of by done.
  apply wp_bind, wp_slice_from; [|intros; exfalso; lia]. intros _.
  apply wp_bind, wp_slice_from; [|intros; exfalso; lia]. intros _.
  set (m1 := setb m (s_blk out) (splice (s_off out) (enc_data A) L)).
  apply wp_bind, wp_getW; [done| |lia]. intros _. split; [apply HF1; lia|].
  change (mw m1) with (mw m). fold W. set (B := deltas (at_ W (s_off inp + 3)) (sub (s_off inp + 4) 4 W)).
  destruct (decide (s_len inp < 8)) as [Hs8|Hs8].
  { apply wp_bind, wp_Put4uint32DeltaScalar; cbn [s_blk s_off s_len s_cap]; change (mw m1) with (mw m); fold W B.
    - repeat split; cbn [s_blk s_off s_len s_cap]; fold W; lia.
    - apply inb_setb; [done|]. repeat split; cbn [s_blk s_off s_len s_cap]; fold L; lia.
    - intros. exfalso. lia.
    - intros. exfalso. lia.
    - intros. apply Hp. lia. }
  assert (Exs : xs = A ++ B) by (apply deltas_sub8; subst W; lia).
  assert (Ez : zlen (enc_data xs) = zlen (enc_data A) + zlen (enc_data B)) by (rewrite Exs; apply zlen_enc_data_app).
  apply wp_bind, wp_Put4uint32DeltaScalar; cbn [s_blk s_off s_len s_cap]; change (mw m1) with (mw m); fold W B.
  - repeat split; cbn [s_blk s_off s_len s_cap]; fold W; lia.
  - apply inb_setb; [done|]. repeat split; cbn [s_blk s_off s_len s_cap]; fold L; lia.
  - intros. split; intros; [apply HF1; lia|apply HF2; lia].
  - intros H8 HB. unfold m1. rewrite blk_setb by done. rewrite setb_setb.
    rewrite splice_app_l; [|done|subst L; lia]. rewrite <- enc_data_app, <- Exs.
    assert (HlB : length B = 4%nat) by (unfold B; rewrite deltas_length; apply sub_length_exact; subst W; lia).
    assert (BA : is_byte (ctrl_of A)) by (apply ctrl_of_byte; lia).
    assert (BB : is_byte (ctrl_of B)) by (apply ctrl_of_byte; lia).
    cbn [wp]. rewrite Z.lor_0_l. unfold is_byte in *. rewrite (u16_small (ctrl_of A)), (u16_small (ctrl_of B)) by lia.
    rewrite ctrl16_val by done.
    replace (ctrl_of A + 256 * ctrl_of B) with (ctrl16_of xs).
    + apply HQ; lia.
    + unfold ctrl16_of. rewrite Exs. rewrite <- HlA at 1. rewrite take_app. rewrite <- HlA. rewrite drop_app. done.
  - intros. apply Hp. lia.
Qed.
